# Formal model of FlatCV in Rocq/Coq 8.16.1

The code is C99 (`/repo/src/*.c`); the model is a deep transcription of each C
function into a total, computable Gallina function.  Nothing of the repository
is compiled or executed; the tie to the code is the file:line citation carried
by every model definition.

## 1. Semantics of C used by the model (`Base.v`, `Heap.v`, `F.v`)

* **Outcomes.**  Every modelled computation has type `res A`:
  `Ok a` | `UB kind` (out-of-bounds access, uninitialised read, signed overflow,
  division by zero, bad float-to-int cast, invalid free, use after free, ...) |
  `Hang` (the C loop never terminates) | `Abort` (assert/exit).
  Undefined behaviour is therefore a distinct outcome, never assumed away.
* **Integers** are `Z` with explicit reductions: `u8/u32/u64` wrap modulo 2^k,
  `ck32` turns signed 32-bit overflow into `UB`.  Assumed data model: LP64
  (`int` 32 bit, `size_t` 64 bit, `SIZE_MAX = 2^64-1`).
* **Buffers** are a length and a partial map from index to value; `None` means
  "not yet initialised".  `load`/`store` check bounds and initialisation.
* **Loops** are `for_ lo hi body`, structural recursion on the trip count
  computed from the loop bounds, or `while_ fuel`, whose exhaustion is `Hang`.
  Loops with a 32-bit counter and a 64-bit bound (`for_u32`) are `Hang` when the bound
  exceeds 2^32-1, because the counter then wraps for ever.
* **Heap** is a map from block ids to objects with a `malloc` oracle
  (`nat -> bool`, arbitrary): theorems quantify over the oracle, hence over
  every pattern of allocation failures.  `free` of NULL is a no-op, of anything
  not live is `UB`.
* **Floats** are Flocq's `binary64`/`binary32` (`BinarySingleNaN`), round to
  nearest even, no FMA contraction, `FLT_EVAL_METHOD == 0`.  `exp`, `atan2`,
  `asin`, `pow`, `atof` are Section variables (oracles) that become ordinary
  universally quantified arguments of the theorems.

## 2. Layout of `rocq/theories`

* `Base.v`, `Heap.v`, `F.v` – semantics above and loop/heap reasoning rules.
* `Spec.v` – the small independent specification vocabulary (images, pixels,
  rectangles, disks, memory contract) in which theorems are stated.
* `M_*.v` – the model, one file per C file or group of C functions (no proofs).
* `P_*.v` – lemmas and proofs.
* `T_*.v` – property theorems only: each is closed by `exact lemma`, followed by
  `Print Assumptions` and accompanied by an `Example` instantiating its
  hypotheses on a concrete, non-trivial case.

## 3. Plan per property

| Property | What is modelled | How it is proved |
|---|---|---|
| C01–C05 | flip.c, rotate.c on the heap model | loop invariant "all pixels visited so far are in place", generic lemma over index permutations; C05 by composing the pixel equations |
| C06, C07 | crop.c (row memcpy) | loop invariant over rows; composition by pixel equations |
| C08–C10 | trim.c | while-loop invariants; exact characterisation of the four bounds; C10 expected false (columns are trimmed before rows): refutation by computation |
| C11, C12 | conversion.c grayscale | 32-bit index arithmetic made explicit; C12 expected false: 65536x65536 makes the loop bound wrap to 0 |
| C13 | rgba_to_grayscale.c, single_to_multichannel.c | loop invariants, weights sum to 256 |
| C14, C15 | parse_hex_color.c, convert_to_binary.c, strings as `list Z` without NUL | case analysis on strings |
| C16, C17 | grayscale_stretch | histogram invariant; C17 expected false at 2^32 pixels |
| C18, C19 | otsu and threshold functions, floats by Flocq | structural; C19 expected false when t<16 or t>239 |
| C20–C22 | binary_closing_disk.c | pointwise characterisation, then lattice laws; idempotence of the composite on a bounded domain to be decided |
| C23–C26 | draw.c | Bresenham invariant; clipping; C25 expected false |
| C27, C28 | histogram.c | counting invariant; C28 expected false |
| C29–C31 | exif.c over a file model (byte list + position) | parsing lemmas; C30, C31 expected false |
| C32–C34 | watershed_segmentation.c | queue refinement, reachability invariant, termination measure |
| C35 | corner_peaks.c | greedy-suppression invariant |
| C36 | sort_corners.c | permutation invariant of the sort |
| C37–C42 | cli.c parsing, pipeline array, apply_operation, execute_pipeline, EXIF part of main | string induction, heap ownership invariant |
| C43–C49 | resize, sobel, blur, perspective | Flocq error analysis where numeric, structural otherwise |
| C52, C53 | found while modelling Otsu and morphology | refuted by computation |
| C54–C56 | found while modelling draw.c | C54, C55 refuted by computation, C56 by an invariant (no index reaches 2^32) |
| C50, C51 | corner_detection.c, foerstner_corner.c | memory-safety; expected false, refuted by witnesses |
| C57, C58 | exif.c shifts; EXIF part of main | refuted by witnesses: a field with top byte >= 128; a failing rotation |
| C59–C61 | crop, rotate and ownership in apply_operation / execute_pipeline / main | case analysis; ownership invariant; C61 refuted by an angle outside int |
| C62, C63 | watershed_segmentation.c outside the ranges of C32–C34 | refuted by witnesses |
| C64, C65 | corner_peaks.c, sort_corners.c | refuted by witnesses (non-transitive suppression; nearer point first) |
| C66, C67 | fcv_resize | error analysis for the positive part; refuted by witnesses |
| C68 | sobel with 3 channels | refuted for every RGB picture |
| C69, C70 | blur with broken radii / underflowing sigma | error analysis; refuted by witnesses |
| C71–C73 | fcv_bw_smart as a composition of grayscale, blur and Otsu | composition of the contracts C11, C46, C18; refutations for > 10^8 pixels and for pictures below 100 pixels |
| C74–C77 | perspectivetransform.c | witnesses by computation on doubles; C76 for every state without memory |
| C78, C79 | fcv_foerstner_corner | pictures constant along an axis or diagonal: exact cancellation; witnesses by computation; C79 by error analysis |
| C80, C81 | every branch of apply_operation, execute_pipeline | composition of the contracts of all library functions; induction over the pipeline |
| C82–C85 | apply_operation | universal refutations (no memory for a text copy; 2^29 pixels; numbers out of range; black pictures) |
| C86, C87 | main: argument handling, loading (oracle), EXIF, pipeline, format choice, saving (oracle) | composition with C80, C38, C42; file operations appear as the result "what was written" |
| C88, C89 | main: choice of format, PNG row stride | universal refutations |
| C90, C91 | float sums and between-class variance of fcv_otsu_threshold_rgba | forward error analysis of the float sums (relative error counted in units of 2^-24, zeros add exactly), loop invariant "best so far", case split on rounding of the dark share to 1 |
| C92, C93 | operations detect_corners and draw_corners, main's detect-only mode, scaling of the peaks | case analysis over C50; union of four disks (C23); error analysis of the scale factors |
| C94, C95 | operations extract_document_to and extract_document | C50 composed with fcv_calculate_perspective_transform and C49; error analysis of the side lengths (pow is an oracle within the contract `pow2_ok`) |
| C96-C98 | combinations of the turning functions with the tone functions, fcv_sobel_edge_detection and fcv_generate_histogram (Spec_Rel.v: the turnings as coordinate maps; Spec_Ops.v: which function does which) | the tone functions depend only on gray level and level counts (C18); counts are invariant under bijections of the pixels; the Sobel sums are permuted and negated by the turnings |
| C99, C100, C102 | combinations of fcv_add_border with fcv_crop and fcv_trim, of dilations and erosions, of drawings | from the exact pixel contents (C26, C08, C09, C20, C23) |
| C101 | fcv_otsu_threshold_rgba on black-and-white pictures | the first maximiser is at 0 or 255; error analysis at 1-2^-24 excludes 255 up to 2^24 pixels; a concrete picture of 20 million pixels (its level counts, not its pixels, are computed) refutes the rest |
| C103, C104 | create_pipeline, add_operation, free_pipeline, parse_pipeline's own allocations (M_Table.v: a heap with tables, strings and the Pipeline) | invariant: the Pipeline block and its table hold the operations added so far, all other blocks are as before; failing allocations by computation |
| C105-C111 | the vector functions of the Haskell binding, bindings/flatcv-hs/src/FlatCV.hs (M_Haskell.v: a vector is an address and a length that the library trusts; the finalizer is free; `error` is None) | from the contracts of the C functions they call; the lengths by modular arithmetic; short vectors by computation |
| C112, C113 | detectCorners, extractDocument and extractDocumentAuto of the binding | from C50, C93-C95 |
| C114 | histories of calls and finalizers on the vectors in use (Spec_HsHistory.v) | invariant: the vectors in use have distinct live blocks with the contents their calls gave them; all other memory is framed |
| C115 | the playground's worker, tests/cli/playground/image-worker.js (M_Web.v), on the C functions' models | from the contracts of C11, C18, C45, C46 and a bookkeeping of the blocks |
| C116-C119 | the page and the worker as two processes with queues of messages (M_Web.v: script.js, image-worker.js) | invariant over all event sequences: the clicks split into answered, computed and waiting ones; a count of the messages that can still bring the default picture; witnesses for the refutations |
| C120, C121 | sequences of turnings, and of turnings mixed with tone changes (Spec_Seq.v) | induction over both sequences: each result shows the original under one of eight coordinate maps; tone functions see only counts of gray levels, which turning keeps (from C01-C05, C96) |
| C122 | pipelines and runs of the program that only turn (Spec_SeqCli.v), positions on a turned sheet (Spec_Seq.v: laid) | from C80 and C86: each operation moves the picture by one of eight coordinate maps, which compose; the orientation tags are turnings too |
| C123 | pipelines mixing turnings with gray levels, morphology and borders (Spec_SeqCli.v: mixture) | the effect of such an operation on a moved picture is the moved effect (disks are symmetric), and is determined by the picture; every pipeline equals its operations followed by one of eight maps |
| C124, C125 | crop and trim before and after turning (Spec_Turn.v: where a rectangle is after turning) | from C01-C06 pixel by pixel; for trim from C08: the rectangle kept is determined by the picture, and mirroring maps one to the other; quarter turns refuted by a 3x2 picture |
| C126 | crop followed by grayscale, conversions of channels, morphology or blur, against the whole picture (Spec_Tile.v: knows) | from C06, C11, C13, C15, C20, C21: the disk around the pixel lies in the tile or leaves the picture where it leaves the tile; for blur both sums run over the same numbers in the same order |
| C127 | dilations and erosions with different radii | from C20: disks are nested, and sums of points of two disks lie in a third one (Cauchy-Schwarz) |
| C128 | drawing and cropping | from C23 and C06: both give, pixel by pixel, the colour inside the moved shape and the old byte elsewhere |
| C129 | drawing and turning | from C23 and C96: the shapes have the symmetries of the turning; for disks and the diagonals this follows from the recursion of the arc and its decision variable (P_Swap), except for radius 0 |
| C130 | two calls of add_border | from C26, with the colour of the border given exactly |
| C131 | a disk over a disk or circle about one centre | from C23: the arc of the larger radius stays above the one of the smaller radius, by comparing the decision variables where they meet (P_Nested); symmetry about the diagonals (P_Swap) |

### Modelled

All functions of `/repo/src/*.c`, including `main`, with these exceptions and
simplifications (each also stated in the comment of the definition concerned):

* `write_debug_img` and everything under `DEBUG_LOGGING`; `print32_t_usage`;
  messages on stderr/stdout other than the binarization warning; timing.
* `stbi_load` and `stbi_write_*` are external: loading is an arbitrary value
  (picture or failure), writing is an arbitrary success/failure, recorded together with
  the arguments it was called with.
* libc: `atof`, `atoi`, `%.2f`, `asin` are arbitrary functions, and so is
  `pow(x,2)` except in C95 (contract `pow2_ok`, Spec_Extract.v); `exp` and `atan2` are arbitrary functions meeting the accuracy contracts `exp_ok`
  (Spec_Blur.v) and `atan2_ok` (Spec_Corners.v), which the theorems name as
  hypotheses and for which the Examples give an instance.  `sqrt`, the four
  operations, comparisons and conversions are IEEE-754 (Flocq).
  `strtol`/`strtoul`/`strtok_r`/`isspace` (C locale) are modelled.
* `main` (M_Main.v) takes the operations as plain values and assumes that the memory for
  them, for the joined argument text and for the parser's `strdup`s is available; these
  allocations are modelled separately (M_Table.v, C103, C104).  The copies made by
  `apply_operation` may fail (C82).
* The output parameters of `fcv_resize`, `fcv_trim`, `fcv_extract_document_auto`, ... are
  return values of the model, so NULL output parameters are not covered.
* No picture with four corner peaks is computed inside Coq (256 x 256 floating-point
  stages): the hypotheses of C50 and C92-C95 are met by the Examples, but of the
  outcomes they describe only "undefined" is exhibited (C50_black_refuted).
* Matrices, peak lists and corner structs are single heap objects.
* Of the Haskell binding, the functions on vectors are modelled (M_Haskell.v), not
  `prettyShow*`, `getExifOrientation`, `parseHexColor` and the functions on pointers, which only
  pass their arguments on.  Numbers cross the boundary unchanged; vectors are whole
  blocks, not slices.  The histories of C114 are sequential.
* The playground (M_Web.v) is modelled without the texts of its messages and without
  `onerror`, file reading and image decoding; its C functions are the 64-bit ones (no
  difference as long as 8 bytes per pixel fit in 32 bits).  Messages arrive in order.
* Not modelled: the amalgamation script, stb_image itself,
  the file system beyond a byte sequence.

### Findings

Statements that a user would expect, but which are false of the code, are kept as
properties and refuted: C10, C12, C17, C19 (band), C25, C28, C30, C31, C34
(separation), C37 (malformed), C39, C44, C47, C48 (accuracy), C50, C51, C52–C58,
C61–C70, C72–C79, C82–C85, C88, C89, C101, C104,
C106–C109, C111, C112, C115, C117–C119, C125.  The most consequential ones:

* corner detection and `extract_document` read uninitialised memory on every black picture
  (C50, C85); each successful corner detection leaks two blocks (C50);
* the EXIF reader loops for ever on files that stop after a marker (C30);
* `bw_smart` refuses pictures above 10^8 pixels (C72), `circle`/`disk` overflow int from
  2^29 pixels on (C83), saving overflows int from 2^29 columns on (C89);
* an output file named `.JPG` is written as PNG (C88);
* numeric parameters are cast to int unchecked (C61, C62, C84);
* `malloc`/`strdup` results are not checked in the perspective code (C76) and in
  `apply_operation` (C82), nor in the command-line parser (C104).

## 4. Trusted base

1. Coq 8.16.1's kernel (and `vm_compute`).
2. The axioms `Print Assumptions` lists per theorem (section 5, kept current).
3. The faithfulness of the transcription (citations in `M_*.v`), the C semantics
   above, LP64, IEEE-754 doubles.

## 5. Axioms per theorem

What `Print Assumptions` lists (regenerate with `tools/axioms.py` after a full build).
Only axioms of the standard library occur.

* Closed under the global context:
  C01_flip_x, C01_flip_x_rejects, C02_flip_y, C02_flip_y_rejects, C03_transpose, C03_transpose_rejects, C03_transverse, C03_transverse_rejects, C04_rotate_90, C04_rotate_90_rejects, C04_rotate_180, C04_rotate_180_rejects, C04_rotate_270, C04_rotate_270_rejects, C05_flip_x_twice, C05_flip_y_twice, C05_rotate_180_twice, C05_transpose_twice, C05_transverse_twice, C05_rotate_90_then_270, C05_rotate_90_four, C05_rotate_90_twice, C05_flip_x_flip_y, C05_transpose_flip_x, C05_transpose_flip_y, C05_transpose_rotate_180, C06_crop, C06_crop_rejects, C07_crop_crop, C07_crop_full, C08_trim, C08_box_unique, C09_larger_tolerance, C10_trim_idempotent_refuted, C10_trim_idempotent_partial, C11_grayscale, C11_grayscale_rejects, C11_luma_between, C11_grayscale_idempotent, C12_grayscale_every_size_refuted, C13_rgba_to_grayscale, C13_rgba_to_grayscale_rejects, C13_single_to_multichannel, C13_single_to_multichannel_rejects, C13_round_trip, C14_decodes, C14_everything_else_is_white, C15_convert_to_binary, C15_convert_to_binary_rejects, C16_grayscale_stretch, C16_stretch_monotone, C16_stretch_rejects, C17_stretch_terminates_refuted, C20_radius_zero, C27_histogram, C27_rejects, C28_large_refuted, C28_large_partial, C29_orientation, C29_no_tag, C29_no_exif, C29_not_jpeg, C30_terminates_refuted, C30_terminates_partial, C31_range_refuted, C31_range_partial, C32_watershed, C32_rejects, C33_colours, C34_boundaries_partial, C37_geometry, C37_geometry_x, C37_geometry_size, C37_accepts_only, C37_malformed_refuted, C40_pipeline, C41_rotate, C41_rejects, C42_exif, C42_plain, C54_gray_partial, C57_shift_refuted, C58_exif_failure_refuted, C59_crop, C59_rejects, C60_run, C63_every_size_refuted, C63_unwritten_refuted, C98_turn_histogram, C103_table, C105_gray, C105_multichannel, C105_crop, C105_trim, C105_histogram, C106_binary_refuted, C109_leak_refuted, C109_watershed_partial, C110_threshold, C111_large_refuted, C120_sequences, C120_back, C120_laid, C124_turn_crop, C125_mirror_partial, C125_quarter_partial, C125_quarter_refuted, C125_mirror_refuted, C126_grayscale, C126_to_gray, C126_multichannel, C126_binary
* `ClassicalDedekindReals.sig_forall_dec`, `FunctionalExtensionality.functional_extensionality_dep`:
  C48_exact_partial, C79_peak_partial
* `ClassicalDedekindReals.sig_forall_dec`, `ClassicalDedekindReals.sig_not_dec`, `FunctionalExtensionality.functional_extensionality_dep`:
  C46_weights
* `ClassicalDedekindReals.sig_forall_dec`, `ClassicalDedekindReals.sig_not_dec`, `Classical_Prop.classic`, `FunctionalExtensionality.functional_extensionality_dep`:
  C08_rejects, C09_trim_threshold, C09_not_finite, C18_otsu, C18_same_histogram, C18_otsu_rejects, C19_monotone, C19_band_refuted, C20_dilation, C20_erosion, C20_rejects, C21_closing, C21_opening, C21_closing_extensive, C21_opening_anti_extensive, C21_closing_increasing, C21_opening_increasing, C22_opening_idempotent, C22_closing_idempotent, C23_circle, C23_disk, C23_rejects, C24_disk_rows, C25_radius_zero_refuted, C26_add_border, C26_rejects, C34_separated_refuted, C35_corner_peaks, C35_rejects, C36_sort_corners, C36_three_any, C36_three_rect, C36_too_few, C38_joined, C38_split, C38_sequence, C38_parentheses, C38_plain, C38_crop, C39_unmodified_refuted, C39_watershed_partial, C39_percent_partial, C39_border_partial, C43_resize, C43_identity, C43_rejects, C44_absolute_refuted, C44_absolute_fails_refuted, C44_absolute_partial, C45_sobel_gray, C45_sobel_rgba, C45_rejects, C46_blur, C46_range, C46_zero, C46_rejects, C47_constant_refuted, C47_constant_partial, C48_bounded_partial, C48_fallback, C48_maps_refuted, C49_sample, C49_range_partial, C49_exact, C49_half_turn, C49_rejects, C50_detect_partial, C50_rejects, C50_no_memory, C50_black_refuted, C51_response_partial, C51_rejects, C51_small_refuted, C52_two_classes_refuted, C53_every_radius_refuted, C54_gray_refuted, C55_radius_overflow_refuted, C56_large_border_refuted, C61_every_angle_refuted, C62_every_marker_refuted, C64_covered_refuted, C65_first_refuted, C66_constant_refuted, C66_constant_partial, C67_half_mean_refuted, C68_rgb_refuted, C69_mirror_refuted, C69_mirror_partial, C70_tiny_refuted, C71_smart, C71_rejects, C72_big_refuted, C73_dot_refuted, C73_order_partial, C74_defined_refuted, C75_reuse_refuted, C76_oom_refuted, C77_white_refuted, C78_ramp_refuted, C78_striped_partial, C79_peak_refuted, C80_operation, C80_pipeline, C81_refuses, C81_unreadable, C82_text_memory_refuted, C83_big_refuted, C84_numbers_refuted, C85_black_refuted, C85_main_refuted, C86_run, C87_nothing, C88_format_refuted, C89_wide_refuted, C90_best_split, C91_two_tone, C92_detect, C92_draw, C92_main, C93_position, C94_extract_to_partial, C95_extract_partial, C96_turn_tones, C97_turn_edges, C99_crop_border, C99_trim_border, C100_dilation_radius, C100_erosion_radius, C100_erosion_dual, C100_dilation_erosion, C100_dilation_twice, C101_single_refuted, C101_single_partial, C101_double, C102_order, C102_twice, C102_circle_disk, C103_arguments, C104_memory_refuted, C104_joined_partial, C105_pictures, C105_throws, C105_blur, C105_smart, C105_sobel_gray, C105_resize, C105_trim_threshold, C105_border, C105_matrix, C106_sobel_refuted, C106_corner_refuted, C106_morphology_refuted, C107_short_refuted, C108_fallback_refuted, C108_point_refuted, C108_transform_partial, C110_circle, C110_disk, C112_detect_partial, C112_empty_refuted, C112_black_refuted, C113_extract_partial, C113_auto_partial, C114_history, C114_released, C115_worker_partial, C115_no_memory_refuted, C116_schedule, C116_no_memory, C116_settles, C116_no_module, C117_spinner_partial, C117_polite_partial, C117_spinner_refuted, C118_picture_partial, C118_picture_refuted, C119_early_refuted, C119_same_id_refuted, C121_mixed, C122_pipeline, C122_program, C123_mixed, C126_dilation, C126_erosion, C126_closing, C126_opening, C126_blur, C127_dilation, C127_erosion, C127_twice_dilation, C127_twice_erosion, C128_draw_crop, C129_circle, C129_disk_partial, C129_disk_refuted, C130_borders, C131_hidden_partial, C131_hidden_refuted, C131_circle_partial
