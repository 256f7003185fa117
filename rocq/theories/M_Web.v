(** * Model of the browser playground: tests/cli/playground/image-worker.js, script.js

    The page and its worker exchange messages; each side handles one message or event
    at a time, and messages arrive in the order in which they were sent.
    Simplifications: the C functions are those of the other M_ files (64-bit size_t,
    whereas WebAssembly has 32 bits: no difference as long as 8 bytes per pixel fit
    in 32 bits); texts of messages are left out; the worker can be created. *)
From Verif Require Import Base F Heap M_Color M_Blur M_Sobel M_Otsu M_Haskell.

(** The operations' names; [Other]: any other text *)
Inductive operation := Grayscale | Blur | Sobel | Binary | Other.
Definition op_eqb (a b : operation) : bool :=
  match a, b with
  | Grayscale, Grayscale | Blur, Blur | Sobel, Sobel | Binary, Binary | Other, Other => true
  | _, _ => false
  end.

(** A picture of the page: ImageData with its bytes *)
Record picture := mkpic { width : Z; height : Z; imageData : buf Z }.
(** image-worker.js:99-104: the worker's result *)
Record result := mkresult { processedData : list Z; r_width : Z; r_height : Z; channels : Z }.

(** image-worker.js:18-22 [copyToWasmMemory]; when malloc yields 0, the bytes are
    written from address 0 on, over the program's own data *)
Definition copyToWasmMemory (data : buf Z) : M ptr :=
  dataPtr <-- alloc (OBytes (bnew (blen data))) ;;
  b <-- get_bytes dataPtr ;;
  b <-- lift (bcopy b 0 data 0 (blen data)) ;;
  _ <-- put_bytes dataPtr b ;;
  ret dataPtr.

(** image-worker.js:25-27 [copyFromWasmMemory] *)
Definition copyFromWasmMemory (p : ptr) (length : Z) : M (list Z) :=
  b <-- get_bytes p ;;
  lift (read_from b 0 (Z.to_nat length)).

Section Web.
(** The C library's exp (see M_Blur) *)
Variable exp : f64 -> f64.

(** image-worker.js:43-91: one case: the C function's result and, unless it is NULL,
    the bytes *)
Definition one_case (call : M ptr) (length : Z) : M (ptr * option (list Z)) :=
  outputPtr <-- call ;;
  if is_null outputPtr then ret (outputPtr, None) else
  d <-- copyFromWasmMemory outputPtr length ;;
  ret (outputPtr, Some d).
Definition switch (op : operation) (w h : Z) (inputPtr : ptr) : M (ptr * option (list Z)) :=
  match op with
  | Grayscale => one_case (grayscale w h inputPtr) (w * h * 4)
  | Blur => one_case (apply_gaussian_blur exp w h (d_of_Z 5) inputPtr) (w * h * 4)
  | Sobel => one_case (sobel_edge_detection w h 4 inputPtr) (w * h)
  | Binary => one_case (otsu_threshold_rgba w h false inputPtr) (w * h * 4)
  | Other => ret (Null, None)
  end.

(** image-worker.js:30-113 [processImage], once the module is there; [None]: an
    exception.  The memory is released either way (finally). *)
Definition processImage (op : operation) (data : picture) : M (option result) :=
  let w := width data in
  let h := height data in
  inputPtr <-- copyToWasmMemory (imageData data) ;;
  r <-- switch op w h inputPtr ;;
  let '(outputPtr, processed) := r in
  _ <-- free inputPtr ;;
  _ <-- (if is_null outputPtr then ret tt else free outputPtr) ;;
  ret (match processed with
       | None => None
       | Some d => Some (mkresult d w h (match op with Sobel => 1 | _ => 4 end))
       end).

(** The messages to the worker (script.js:70, 154-163) and to the page
    (image-worker.js:10, 13, 125-130, 134-139; [None]: success is false) *)
Inductive to_worker_msg := MInit | MProcess (id : Z) (op : operation) (data : picture).
Inductive to_page_msg := RInit (success : bool) | RResult (id : Z) (data : option result).

(** The variable flatcvModule: null, null while the module is loading, or the module *)
Inductive module := NoModule | Loading | Loaded.

(** What the user sees appear: a picture on the right canvas, or the message that an
    operation failed *)
Inductive outcome := Drawn (w h : Z) (pixels : list Z) | Failed (op : operation).

Record world := mkworld {
  memory : st;                        (* of the WebAssembly module *)
  flatcvModule : module;
  to_worker : list to_worker_msg;     (* messages under way, first one first *)
  to_page : list to_page_msg;
  originalImageData : option picture;
  defaultLoading : bool;              (* loadDefaultImage has been called, its picture is not there yet *)
  enabled : bool;                     (* the filter buttons *)
  processingQueue : list (Z * operation);
  spinner : operation -> bool;        (* is the button's spinner shown? *)
  clicks : nat;                       (* number of operation ids used so far *)
  screen : list outcome               (* everything that appeared so far, first one first *)
}.

(** Map.set, get, delete *)
Fixpoint map_get (q : list (Z * operation)) (id : Z) : option operation :=
  match q with [] => None | (k, o) :: q => if k =? id then Some o else map_get q id end.
Fixpoint map_delete (q : list (Z * operation)) (id : Z) : list (Z * operation) :=
  match q with [] => [] | (k, o) :: q => if k =? id then q else (k, o) :: map_delete q id end.
Fixpoint map_set (q : list (Z * operation)) (id : Z) (o : operation) : list (Z * operation) :=
  match q with [] => [(id, o)] | (k, o') :: q => if k =? id then (k, o) :: q else (k, o') :: map_set q id o end.

(** script.js:167-192 [displayProcessedImage]; [None]: data.set throws, as there are
    too many bytes *)
Definition displayProcessedImage (r : result) : option outcome :=
  let n := Z.to_nat (r_width r * r_height r) in
  if channels r =? 1 then
    Some (Drawn (r_width r) (r_height r)
      (flat_map (fun i => let gray := nth i (processedData r) 0 in [gray; gray; gray; 255]) (seq 0 n)))
  else
    let k := length (processedData r) in
    if (n * 4 <? k)%nat then None
    else Some (Drawn (r_width r) (r_height r) (processedData r ++ repeat 0 (n * 4 - k))).

(** script.js:78-90: the spinner of the button of [op] *)
Definition set_spinner (f : operation -> bool) (op : operation) (v : bool) : operation -> bool :=
  fun o => if op_eqb o op then v else f o.

(** The ids Date.now() + Math.random() (script.js:143), of the n-th click *)
Variable ids : nat -> Z.

(** What can happen next *)
Inductive event :=
| LoadImage (data : picture)     (* the user's picture has been decoded, script.js:118-133 *)
| DefaultLoads (data : picture)  (* the default picture has been decoded, script.js:213-227 *)
| Click (op : operation)         (* on one of the filter buttons, script.js:195-209 *)
| WorkerTakes                    (* the worker handles its next message *)
| ModuleLoads (success : bool)   (* await FlatCV() ends *)
| PageTakes.                     (* the page handles its next message *)

(** script.js:140-164 [processImageWithWorker]; a disabled button does nothing *)
Definition click (op : operation) (x : world) : world :=
  match enabled x, originalImageData x with
  | true, Some data =>
      let operationId := ids (clicks x) in
      mkworld (memory x) (flatcvModule x) (to_worker x ++ [MProcess operationId op data]) (to_page x) (Some data) (defaultLoading x) (enabled x)
        (map_set (processingQueue x) operationId op) (set_spinner (spinner x) op true) (S (clicks x)) (screen x)
  | _, _ => x
  end.

(** image-worker.js:116-141 [onmessage]; also 31-33 *)
Definition worker_takes (x : world) : res world :=
  let answer m rest t := mkworld m (flatcvModule x) rest (to_page x ++ [t]) (originalImageData x) (defaultLoading x) (enabled x)
    (processingQueue x) (spinner x) (clicks x) (screen x) in
  match to_worker x with
  | [] => Ok x
  | MInit :: rest => Ok (mkworld (memory x) Loading rest (to_page x) (originalImageData x) (defaultLoading x) (enabled x)
      (processingQueue x) (spinner x) (clicks x) (screen x))
  | MProcess id op data :: rest =>
      match flatcvModule x with
      | Loaded =>
          match processImage op data (memory x) with
          | Ok (r, m) => Ok (answer m rest (RResult id r))
          | UB u => UB u | Hang => Hang | Abort => Abort
          end
      | _ => Ok (answer (memory x) rest (RResult id None))
      end
  end.

(** image-worker.js:5-15 [initFlatCV], its end *)
Definition module_loads (success : bool) (x : world) : world :=
  match flatcvModule x with
  | Loading => mkworld (memory x) (if success then Loaded else NoModule) (to_worker x) (to_page x ++ [RInit success])
      (originalImageData x) (defaultLoading x) (enabled x) (processingQueue x) (spinner x) (clicks x) (screen x)
  | _ => x
  end.

(** script.js:35-61 [onmessage] *)
Definition page_takes (x : world) : world :=
  match to_page x with
  | [] => x
  | RInit success :: rest => mkworld (memory x) (flatcvModule x) (to_worker x) rest (originalImageData x) (success || defaultLoading x) (enabled x)
      (processingQueue x) (spinner x) (clicks x) (screen x)
  | RResult id data :: rest =>
      let go q sp sc := mkworld (memory x) (flatcvModule x) (to_worker x) rest (originalImageData x) (defaultLoading x) (enabled x) q sp (clicks x) sc in
      match map_get (processingQueue x) id with
      | None => go (processingQueue x) (spinner x) (screen x)
      | Some op =>
          let q := map_delete (processingQueue x) id in
          match data with
          | Some r =>
              match displayProcessedImage r with
              | Some o => go q (set_spinner (spinner x) op false) (screen x ++ [o])
              | None => go q (spinner x) (screen x)
              end
          | None => go q (set_spinner (spinner x) op false) (screen x ++ [Failed op])
          end
      end
  end.

(** script.js:118-132, 213-227: the picture to work on *)
Definition loads (data : picture) (pending : bool) (x : world) : world :=
  mkworld (memory x) (flatcvModule x) (to_worker x) (to_page x) (Some data) pending true
    (processingQueue x) (spinner x) (clicks x) (screen x).

Definition step (e : event) (x : world) : res world :=
  match e with
  | LoadImage data => Ok (loads data (defaultLoading x) x)
  | DefaultLoads data => Ok (if defaultLoading x then loads data false x else x)
  | Click op => Ok (click op x)
  | WorkerTakes => worker_takes x
  | ModuleLoads success => Ok (module_loads success x)
  | PageTakes => Ok (page_takes x)
  end.

Fixpoint run (es : list event) (x : world) : res world :=
  match es with
  | [] => Ok x
  | e :: es => x <- step e x ;; run es x
  end.

(** The page after script.js:30-76, 235: the worker has been created and is asked to
    load the module, whose memory will be [m]. *)
Definition opened (m : st) : world := mkworld m NoModule [MInit] [] None false false [] (fun _ => false) 0 [].
End Web.
