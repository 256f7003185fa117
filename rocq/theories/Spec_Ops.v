(** * Spec_Ops: names for calls of library functions (C96-C102)

    Which function of the library does what; nothing else. *)
From Verif Require Import Base F Heap Spec Spec_Trim Spec_Rel M_Geom M_Color M_Otsu M_Parse M_Morph M_Draw.

(** The function for each way of turning a picture *)
Definition turn (o : turning) : Z -> Z -> ptr -> M ptr :=
  match o with
  | Mirror_x => flip_x | Mirror_y => flip_y | Half_turn => rotate_180 | Transposed => transpose
  | Transversed => transverse | Right_turn => rotate_90_cw | Left_turn => rotate_270_cw
  end.

(** The functions that change the tones of a picture: grayscale, stretched grayscale,
    single and double threshold *)
Definition tones : list (Z -> Z -> ptr -> M ptr) :=
  [grayscale; grayscale_stretch; (fun w h p => otsu_threshold_rgba w h false p); (fun w h p => otsu_threshold_rgba w h true p)].

(** A successful call of add_border, crop's inverse: a border of colour [hex], [bw]
    pixels wide, around a picture of [ch] channels *)
Definition borders hex ch bw := calls_sized (fun w h p => add_border w h ch (Some hex) bw p 0 0).

(** Successful calls of dilation and erosion with a disk of radius [r] *)
Definition dilates r := calls (fun w h p => binary_dilation_disk p w h r).
Definition erodes r := calls (fun w h p => binary_erosion_disk p w h r).

(** The functions that draw on a picture *)
Definition drawings : list (Z -> Z -> Z -> option cstr -> f64 -> f64 -> f64 -> ptr -> M unit) := [draw_circle; draw_disk].
