{
 "claims": [
  {
   "property": "C01",
   "status": "proved",
   "theorems": [
    "C01_flip_x",
    "C01_flip_x_rejects"
   ],
   "note": ""
  },
  {
   "property": "C02",
   "status": "proved",
   "theorems": [
    "C02_flip_y",
    "C02_flip_y_rejects"
   ],
   "note": ""
  },
  {
   "property": "C03",
   "status": "proved",
   "theorems": [
    "C03_transpose",
    "C03_transpose_rejects",
    "C03_transverse",
    "C03_transverse_rejects"
   ],
   "note": ""
  },
  {
   "property": "C04",
   "status": "proved",
   "theorems": [
    "C04_rotate_90",
    "C04_rotate_90_rejects",
    "C04_rotate_180",
    "C04_rotate_180_rejects",
    "C04_rotate_270",
    "C04_rotate_270_rejects"
   ],
   "note": ""
  },
  {
   "property": "C05",
   "status": "proved",
   "theorems": [
    "C05_flip_x_twice",
    "C05_flip_y_twice",
    "C05_rotate_180_twice",
    "C05_transpose_twice",
    "C05_transverse_twice",
    "C05_rotate_90_then_270",
    "C05_rotate_90_four",
    "C05_rotate_90_twice",
    "C05_flip_x_flip_y",
    "C05_transpose_flip_x",
    "C05_transpose_flip_y",
    "C05_transpose_rotate_180"
   ],
   "note": ""
  },
  {
   "property": "C06",
   "status": "proved",
   "theorems": [
    "C06_crop",
    "C06_crop_rejects"
   ],
   "note": ""
  },
  {
   "property": "C07",
   "status": "proved",
   "theorems": [
    "C07_crop_crop",
    "C07_crop_full"
   ],
   "note": ""
  },
  {
   "property": "C08",
   "status": "proved",
   "theorems": [
    "C08_trim",
    "C08_box_unique",
    "C08_rejects"
   ],
   "note": ""
  },
  {
   "property": "C09",
   "status": "proved",
   "theorems": [
    "C09_trim_threshold",
    "C09_not_finite",
    "C09_larger_tolerance"
   ],
   "note": ""
  },
  {
   "property": "C10",
   "status": "partial",
   "theorems": [
    "C10_trim_idempotent_refuted",
    "C10_trim_idempotent_partial"
   ],
   "note": "REFUTED: trimming 3x2 [5 5 5; 1 2 3] gives 3x1, trimming again gives 1x1. The partial theorem shows idempotence whenever the first call drops no row."
  },
  {
   "property": "C11",
   "status": "proved",
   "theorems": [
    "C11_grayscale",
    "C11_grayscale_rejects",
    "C11_luma_between",
    "C11_grayscale_idempotent"
   ],
   "note": ""
  },
  {
   "property": "C12",
   "status": "partial",
   "theorems": [
    "C12_grayscale_every_size_refuted"
   ],
   "note": "REFUTED: the property is false of the code. The theorem is the refutation: on a 65536x65536 image the call succeeds and returns a buffer none of whose bytes was written. The contract holds up to 2^30 pixels (C11)."
  },
  {
   "property": "C13",
   "status": "proved",
   "theorems": [
    "C13_rgba_to_grayscale",
    "C13_rgba_to_grayscale_rejects",
    "C13_single_to_multichannel",
    "C13_single_to_multichannel_rejects",
    "C13_round_trip"
   ],
   "note": ""
  },
  {
   "property": "C14",
   "status": "proved",
   "theorems": [
    "C14_decodes",
    "C14_everything_else_is_white"
   ],
   "note": ""
  },
  {
   "property": "C15",
   "status": "proved",
   "theorems": [
    "C15_convert_to_binary",
    "C15_convert_to_binary_rejects"
   ],
   "note": ""
  },
  {
   "property": "C16",
   "status": "proved",
   "theorems": [
    "C16_grayscale_stretch",
    "C16_stretch_monotone",
    "C16_stretch_rejects"
   ],
   "note": ""
  },
  {
   "property": "C17",
   "status": "partial",
   "theorems": [
    "C17_stretch_terminates_refuted"
   ],
   "note": "REFUTED: the property is false of the code. The theorem is the refutation: on a 65536x65536 image the uint32_t loop counter never reaches 2^32. Termination holds up to 2^30 pixels (C16)."
  },
  {
   "property": "C18",
   "status": "proved",
   "theorems": [
    "C18_otsu",
    "C18_same_histogram",
    "C18_otsu_rejects"
   ],
   "note": ""
  },
  {
   "property": "C19",
   "status": "partial",
   "theorems": [
    "C19_monotone",
    "C19_band_refuted"
   ],
   "note": "Monotonicity proved for all images. The clause 'below t-16 black, above t+16 white' is REFUTED: the band wraps in uint8_t for t<16 or t>239 (C19_band_refuted); C18_otsu states the exact level function for all t."
  },
  {
   "property": "C20",
   "status": "proved",
   "theorems": [
    "C20_dilation",
    "C20_erosion",
    "C20_rejects",
    "C20_radius_zero"
   ],
   "note": ""
  },
  {
   "property": "C21",
   "status": "proved",
   "theorems": [
    "C21_closing",
    "C21_opening",
    "C21_closing_extensive",
    "C21_opening_anti_extensive",
    "C21_closing_increasing",
    "C21_opening_increasing"
   ],
   "note": ""
  },
  {
   "property": "C22",
   "status": "proved",
   "theorems": [
    "C22_opening_idempotent",
    "C22_closing_idempotent"
   ],
   "note": ""
  },
  {
   "property": "C23",
   "status": "proved",
   "theorems": [
    "C23_circle",
    "C23_disk",
    "C23_rejects"
   ],
   "note": ""
  },
  {
   "property": "C24",
   "status": "proved",
   "theorems": [
    "C24_disk_rows"
   ],
   "note": ""
  },
  {
   "property": "C25",
   "status": "partial",
   "theorems": [
    "C25_radius_zero_refuted"
   ],
   "note": "REFUTED: with radius 0 a circle changes 5 pixels and a disk 7 (the loop body runs once with x=1, y=-1)."
  },
  {
   "property": "C26",
   "status": "proved",
   "theorems": [
    "C26_add_border",
    "C26_rejects"
   ],
   "note": ""
  },
  {
   "property": "C27",
   "status": "proved",
   "theorems": [
    "C27_histogram",
    "C27_rejects"
   ],
   "note": ""
  },
  {
   "property": "C28",
   "status": "partial",
   "theorems": [
    "C28_large_refuted",
    "C28_large_partial"
   ],
   "note": "REFUTED: a uniform picture of 21474837 pixels yields a black chart because count*200 wraps in uint32_t. C28_large_partial gives the exact, memory-safe contract for all sizes with the wrapped counts."
  },
  {
   "property": "C29",
   "status": "proved",
   "theorems": [
    "C29_orientation",
    "C29_no_tag",
    "C29_no_exif",
    "C29_not_jpeg"
   ],
   "note": ""
  },
  {
   "property": "C30",
   "status": "partial",
   "theorems": [
    "C30_terminates_refuted",
    "C30_terminates_partial"
   ],
   "note": "REFUTED: every file that stops right after a marker (FF m, m not EOI/SOS/APP1) makes the reader loop forever. C30_terminates_partial: all other files terminate within len(f) rounds."
  },
  {
   "property": "C31",
   "status": "partial",
   "theorems": [
    "C31_range_refuted",
    "C31_range_partial"
   ],
   "note": "REFUTED: the raw 16-bit value is returned (witness: orientation 9). C31_range_partial: the value always lies in 0..65535."
  },
  {
   "property": "C32",
   "status": "proved",
   "theorems": [
    "C32_watershed",
    "C32_rejects"
   ],
   "note": ""
  },
  {
   "property": "C33",
   "status": "proved",
   "theorems": [
    "C33_colours"
   ],
   "note": ""
  },
  {
   "property": "C34",
   "status": "partial",
   "theorems": [
    "C34_separated_refuted",
    "C34_boundaries_partial"
   ],
   "note": "REFUTED (separation): on a flat 4x1 picture with markers at both ends the two middle pixels are flooded in the same step from different sides and touch. C34_boundaries_partial proves the rest: connected regions, and black pixels only where no region or at least two regions are adjacent."
  },
  {
   "property": "C35",
   "status": "proved",
   "theorems": [
    "C35_corner_peaks",
    "C35_rejects"
   ],
   "note": "For w, h <= 2^25 and w*h <= 2^31 (beyond that the uint32_t index wraps). The distance test in double is shown to be exact. Thresholds are absolute; \"exceeds\" is the double comparison v/255.0 > threshold."
  },
  {
   "property": "C36",
   "status": "proved",
   "theorems": [
    "C36_sort_corners",
    "C36_three_any",
    "C36_three_rect",
    "C36_too_few"
   ],
   "note": "atan2 is a parameter with the stated contract atan2_ok (range [-pi, pi], NaN only for NaN)."
  },
  {
   "property": "C37",
   "status": "partial",
   "theorems": [
    "C37_geometry",
    "C37_geometry_x",
    "C37_geometry_size",
    "C37_accepts_only",
    "C37_malformed_refuted"
   ],
   "note": "REFUTED in part: strings such as -18446744073709551566x1 (negative sizes that wrap) and ' 5x +6 7  -8' are accepted (C37_malformed_refuted). Round trip fully proved for every width, height, offset and leading zeros; C37_accepts_only bounds what is accepted."
  },
  {
   "property": "C38",
   "status": "proved",
   "theorems": [
    "C38_joined",
    "C38_split",
    "C38_sequence",
    "C38_parentheses",
    "C38_plain",
    "C38_crop"
   ],
   "note": "For every meaning of atof, atoi and the %.2f rendering. C38_joined/C38_split: splitting of the arguments is irrelevant and the joined buffer never overflows; C38_sequence: commas; C38_parentheses; C38_plain, C38_crop: parameters."
  },
  {
   "property": "C39",
   "status": "partial",
   "theorems": [
    "C39_unmodified_refuted",
    "C39_watershed_partial",
    "C39_percent_partial",
    "C39_border_partial"
   ],
   "note": "REFUTED: string parameters are silently cut to 63 bytes (witness: 8 watershed markers) and names to 31. The _partial theorems: up to 63 bytes they arrive as typed."
  },
  {
   "property": "C40",
   "status": "proved",
   "theorems": [
    "C40_pipeline"
   ],
   "note": "For arbitrary operations that meet op_safe (NULL without effect, or a fresh block); instances: rotate_safe, crop_safe."
  },
  {
   "property": "C41",
   "status": "proved",
   "theorems": [
    "C41_rotate",
    "C41_rejects"
   ],
   "note": ""
  },
  {
   "property": "C42",
   "status": "proved",
   "theorems": [
    "C42_exif",
    "C42_plain"
   ],
   "note": "C42_exif: orientations 2..8 (pixel and dimension mapping, old block released); C42_plain: all other values leave everything alone. The failure of the rotation's allocation is the only other outcome; see C58."
  },
  {
   "property": "C43",
   "status": "proved",
   "theorems": [
    "C43_resize",
    "C43_identity",
    "C43_rejects"
   ],
   "note": "For picture and result of at most 2^32 bytes (index arithmetic is 32-bit) and factors for which the result is non-empty. Colour bounds hold for all double roundings."
  },
  {
   "property": "C44",
   "status": "partial",
   "theorems": [
    "C44_absolute_refuted",
    "C44_absolute_fails_refuted",
    "C44_absolute_partial"
   ],
   "note": "REFUTED: 49 columns resized to 256 give 255, and resizing to 1x1 fails with NULL (49*(1/49) < 1 in double). Proved instead: for targets >= 2 the result is at most one short and never larger."
  },
  {
   "property": "C45",
   "status": "proved",
   "theorems": [
    "C45_sobel_gray",
    "C45_sobel_rgba",
    "C45_rejects"
   ],
   "note": "Grayscale (channels = 1) and RGBA input, every size below 2^31 columns and rows; the scaled strength is exact up to 1/1000 before rounding down. Three-channel input is C68."
  },
  {
   "property": "C46",
   "status": "proved",
   "theorems": [
    "C46_blur",
    "C46_weights",
    "C46_range",
    "C46_zero",
    "C46_rejects"
   ],
   "note": "exp is a parameter with the contract Spec_Blur.exp_ok (exact at 0, NaN to NaN, relative error 2^-40 on [-5,0]); exp_round_ok shows it can be met. Radii from 10^-12 to 1000; for whole radii the weights are the true bell curve (C46_weights), otherwise the distances are those the code uses (truncated). Smaller positive radii: C70."
  },
  {
   "property": "C47",
   "status": "partial",
   "theorems": [
    "C47_constant_refuted",
    "C47_constant_partial"
   ],
   "note": "REFUTED: for every exp meeting the contract, white blurred with radius 1/2 becomes 254 (C47_constant_refuted). Proved instead: the colour changes by at most 2, downwards."
  },
  {
   "property": "C48",
   "status": "partial",
   "theorems": [
    "C48_exact_partial",
    "C48_bounded_partial",
    "C48_fallback",
    "C48_maps_refuted"
   ],
   "note": "REFUTED with doubles: for corners of which three are collinear the solver accepts and a corner lands more than 31 pixels off (C48_maps_refuted). Proved: the same algorithm in exact arithmetic sends all four corners correctly and its answer is unique (C48_exact_partial); the numbers returned are finite, at most 10^6, last one 1 (C48_bounded_partial); NaN or infinite corners give the identity (C48_fallback). Missing: an error bound for well-conditioned corners in floating point."
  },
  {
   "property": "C49",
   "status": "partial",
   "theorems": [
    "C49_sample",
    "C49_range_partial",
    "C49_exact",
    "C49_half_turn",
    "C49_rejects"
   ],
   "note": "Proved for matrices with coefficients of a usual size that map every output pixel to a point at most 10^9 away (tame): every pixel shows the bilinear sample at the mapped point (C49_sample), the identity and other whole-number motions copy exactly (C49_exact), the half turn rotates about the centre (C49_half_turn). Bytes may be 1 below their neighbours' range (C49_range_partial; strict range refuted by C77). Wild matrices: see C74."
  },
  {
   "property": "C50",
   "status": "partial",
   "theorems": [
    "C50_detect_partial",
    "C50_rejects",
    "C50_no_memory",
    "C50_black_refuted"
   ],
   "note": "REFUTED: C50_black_refuted: for every all-black picture (with all allocations succeeding) the function reads uninitialised memory, because the response has fewer than four peaks. Also proved (all allocations succeed): with four or more peaks four of them are returned in clockwise order, with no background the program exits, and with fewer than four peaks the behaviour is undefined. Not covered: failing allocations other than 'none succeeds'."
  },
  {
   "property": "C51",
   "status": "partial",
   "theorems": [
    "C51_response_partial",
    "C51_rejects",
    "C51_small_refuted"
   ],
   "note": "REFUTED for small pictures: C51_small_refuted shows that every picture with fewer rows than half the smoothing window (and more columns than the window) is read out of bounds. C51_response_partial proves memory safety, no leak, and the response values (to within about one grey level when the largest response is at least 1/1000 and the half window is at most 5000) for pictures at least half a window wide and high, fewer than 2^31 pixels, sigma in the stated range; missing: all other sizes and sigma. C51_rejects: null or empty input is refused."
  },
  {
   "property": "C52",
   "status": "partial",
   "theorems": [
    "C52_two_classes_refuted"
   ],
   "note": "REFUTED: a 279x1 picture with levels 253, 254 (277 times), 255 comes out entirely black because the float cumulative sum ends at 1-2^-24."
  },
  {
   "property": "C53",
   "status": "partial",
   "theorems": [
    "C53_every_radius_refuted"
   ],
   "note": "REFUTED: radius 32768 overflows int in dx*dx + dy*dy, already on a 1x1 picture. C20-C22 hold up to radius 32767."
  },
  {
   "property": "C54",
   "status": "partial",
   "theorems": [
    "C54_gray_refuted",
    "C54_gray_partial"
   ],
   "note": "REFUTED: #010101 is drawn as level 0. The partial theorem bounds the error: the level is v or v-1."
  },
  {
   "property": "C55",
   "status": "partial",
   "theorems": [
    "C55_radius_overflow_refuted"
   ],
   "note": "REFUTED: radius 1073741823 passes the guard and overflows in 4*(x-y). C23 and C24 hold for integer parts up to 536870911."
  },
  {
   "property": "C56",
   "status": "partial",
   "theorems": [
    "C56_large_border_refuted"
   ],
   "note": "REFUTED: a 1x1 one-channel picture with border 32768 gives 65537x65537 bytes, and the uint32_t index never reaches the last ones. C26 holds up to 2^32 bytes."
  },
  {
   "property": "C57",
   "status": "partial",
   "theorems": [
    "C57_shift_refuted"
   ],
   "note": "REFUTED: a 32-bit field with top byte >= 128 (offset or count) is shifted into the sign bit of an int."
  },
  {
   "property": "C58",
   "status": "partial",
   "theorems": [
    "C58_exif_failure_refuted"
   ],
   "note": "REFUTED: with orientation 5..8 width and height are swapped before the result of the rotation is checked; on allocation failure the stored 3x2 picture is processed as 2x3."
  },
  {
   "property": "C59",
   "status": "proved",
   "theorems": [
    "C59_crop",
    "C59_rejects"
   ],
   "note": ""
  },
  {
   "property": "C60",
   "status": "proved",
   "theorems": [
    "C60_run"
   ],
   "note": ""
  },
  {
   "property": "C61",
   "status": "partial",
   "theorems": [
    "C61_every_angle_refuted"
   ],
   "note": "REFUTED: (int)param of an angle outside the int range is undefined (witness 3600000000); C41_rotate and C41_rejects cover every angle inside it."
  },
  {
   "property": "C62",
   "status": "partial",
   "theorems": [
    "C62_every_marker_refuted"
   ],
   "note": "REFUTED: a marker at x = 3e9 makes the cast to int32_t undefined. C32_rejects shows the rejection for coordinates in the range of int."
  },
  {
   "property": "C63",
   "status": "partial",
   "theorems": [
    "C63_every_size_refuted",
    "C63_unwritten_refuted"
   ],
   "note": "REFUTED: with 65536x65536 pixels the uint32_t loop over a size_t bound never ends; with 2^30 < w*h < 2^31 pixels the uint32_t output index wraps and the last pixels stay unwritten. C32/C33 hold up to 2^30 pixels."
  },
  {
   "property": "C64",
   "status": "partial",
   "theorems": [
    "C64_covered_refuted"
   ],
   "note": "REFUTED: suppression is not transitive. Of three maxima in a row the left one gives way to the middle one, which gives way to the right one; nothing is returned within min_distance of the left one. C35 (pk_dropped) proves the weaker fact that each dropped maximum has an outranking maximum, kept or not, within min_distance."
  },
  {
   "property": "C65",
   "status": "partial",
   "theorems": [
    "C65_first_refuted"
   ],
   "note": "REFUTED: (0,0), (1,1), (10,2), (2,10) give (1,1) first: it is seen from the centre in the same direction as (0,0) and is nearer. C36 gives the condition under which the claim holds (directions at least 1e-6 apart)."
  },
  {
   "property": "C66",
   "status": "partial",
   "theorems": [
    "C66_constant_refuted",
    "C66_constant_partial"
   ],
   "note": "REFUTED: enlarging by 4 horizontally and shrinking by 0.5 vertically gives black columns. Proved instead: the colour is kept if both factors enlarge or both shrink."
  },
  {
   "property": "C67",
   "status": "partial",
   "theorems": [
    "C67_half_mean_refuted"
   ],
   "note": "REFUTED: the averaging window is shifted by half a source pixel; columns 0,100 give 33 rather than 50."
  },
  {
   "property": "C68",
   "status": "partial",
   "theorems": [
    "C68_rgb_refuted"
   ],
   "note": "REFUTED: proved for every RGB picture of at least two pixels that the read goes out of bounds (the conversion steps four bytes per pixel)."
  },
  {
   "property": "C69",
   "status": "partial",
   "theorems": [
    "C69_mirror_refuted",
    "C69_mirror_partial"
   ],
   "note": "REFUTED: with radius 1.5 the symmetric row 0,255,0 gives at least 126 on the left and at most 51 on the right (the distance (int)(i - radius) is truncated towards 0). Proved for whole radii: symmetric up to 2."
  },
  {
   "property": "C70",
   "status": "partial",
   "theorems": [
    "C70_tiny_refuted"
   ],
   "note": "REFUTED: with radius 2^-100 sigma^2 underflows to 0, the kernel is NaN and its conversion to uint8_t is undefined, for every picture. Radii from 10^-12: C46_blur."
  },
  {
   "property": "C71",
   "status": "proved",
   "theorems": [
    "C71_smart",
    "C71_rejects"
   ],
   "note": ""
  },
  {
   "property": "C72",
   "status": "partial",
   "theorems": [
    "C72_big_refuted"
   ],
   "note": "REFUTED: every picture of more than 10^8 pixels (up to 2^30) is refused with NULL, because the blur radius sqrt(w*h)/10 then exceeds the blur's limit of 1000; C71 shows that up to 10^8 pixels it is accepted."
  },
  {
   "property": "C73",
   "status": "partial",
   "theorems": [
    "C73_dot_refuted",
    "C73_order_partial"
   ],
   "note": "REFUTED: on a 6x6 page of gray 200 with one pixel of gray 20, the dark pixel comes out white and the page black (for every exp that meets the contract), because below 100 pixels the blur has a one-pixel neighbourhood and only rounding noise is thresholded. C73_order_partial: a pixel that rises above its surroundings by at least 5/2 more than another never comes out darker."
  },
  {
   "property": "C74",
   "status": "partial",
   "theorems": [
    "C74_defined_refuted"
   ],
   "note": "REFUTED: a bow-tie quadrilateral gives a matrix for which the int conversion of a coordinate is undefined (C74_defined_refuted)."
  },
  {
   "property": "C75",
   "status": "partial",
   "theorems": [
    "C75_reuse_refuted"
   ],
   "note": "REFUTED: the half-turn matrix is rewritten for the size of the first picture (C75_reuse_refuted)."
  },
  {
   "property": "C76",
   "status": "partial",
   "theorems": [
    "C76_oom_refuted"
   ],
   "note": "REFUTED: malloc is not checked (C76_oom_refuted)."
  },
  {
   "property": "C77",
   "status": "partial",
   "theorems": [
    "C77_white_refuted"
   ],
   "note": "REFUTED: shift by (0.1, 0.3) turns 255 into 254 in all four channels (C77_white_refuted); never worse than 1: C49_range_partial."
  },
  {
   "property": "C78",
   "status": "partial",
   "theorems": [
    "C78_ramp_refuted",
    "C78_striped_partial"
   ],
   "note": "REFUTED: C78_ramp_refuted exhibits the picture 10+5x+7y (5x3, sigma 0.5), whose exact corner strength is 0 everywhere but whose returned strength and roundness at (2,1) are 255: rounding noise normalised to full range. Proved positive part (C78_striped_partial): a picture that changes only along an axis or a diagonal gets response 0 everywhere."
  },
  {
   "property": "C79",
   "status": "partial",
   "theorems": [
    "C79_peak_refuted",
    "C79_peak_partial"
   ],
   "note": "REFUTED: C79_peak_refuted exhibits a bright square (5x5, sigma 0.5) whose strongest pixel gets 254 while no pixel gets 255. C79_peak_partial: when the largest strength is at least 1/1000 (half window at most 5000) the strongest pixel gets 254 or 255."
  },
  {
   "property": "C80",
   "status": "proved",
   "theorems": [
    "C80_operation",
    "C80_pipeline"
   ],
   "note": "For pictures of at most 2^30 pixels and fewer than 2^29 rows and columns. The hypotheses 'fits' state each operation's preconditions. The document operations (detect_corners, draw_corners, extract_document, extract_document_to) are modelled but not covered by this theorem, see C50, C85. Memory for copies of texts is assumed, see C82."
  },
  {
   "property": "C81",
   "status": "proved",
   "theorems": [
    "C81_refuses",
    "C81_unreadable"
   ],
   "note": "Unreadable texts: assuming memory for the copy of the text (C82)."
  },
  {
   "property": "C82",
   "status": "partial",
   "theorems": [
    "C82_text_memory_refuted"
   ],
   "note": "REFUTED: C82_text_memory_refuted: whenever that copy cannot be allocated, NULL is dereferenced."
  },
  {
   "property": "C83",
   "status": "partial",
   "theorems": [
    "C83_big_refuted"
   ],
   "note": "REFUTED: C83_big_refuted: with 2^29 pixels or more the size width*height*4 overflows int. Below that size C80 covers the operations."
  },
  {
   "property": "C84",
   "status": "partial",
   "theorems": [
    "C84_numbers_refuted"
   ],
   "note": "REFUTED: C84_numbers_refuted: for every such number the conversion is undefined. In range, C80 covers the operations."
  },
  {
   "property": "C85",
   "status": "partial",
   "theorems": [
    "C85_black_refuted",
    "C85_main_refuted"
   ],
   "note": "REFUTED: C85_black_refuted and C85_main_refuted: on every black picture the behaviour is undefined (all allocations succeeding)."
  },
  {
   "property": "C86",
   "status": "proved",
   "theorems": [
    "C86_run"
   ],
   "note": "Assumes memory for text copies (C82) and for turning the picture upright (C58), and operations covered by C80. Decoder and encoder (stb_image) are abstract."
  },
  {
   "property": "C87",
   "status": "proved",
   "theorems": [
    "C87_nothing"
   ],
   "note": "The joined argument string is assumed to be allocated."
  },
  {
   "property": "C88",
   "status": "partial",
   "theorems": [
    "C88_format_refuted"
   ],
   "note": "REFUTED: C88_format_refuted: every output name ending in .JPG is written as PNG. C86 gives the exact rule."
  },
  {
   "property": "C89",
   "status": "partial",
   "theorems": [
    "C89_wide_refuted"
   ],
   "note": "REFUTED: C89_wide_refuted: resize 536870912x1 of a 1x1 picture overflows int when the row stride is computed. Up to 2^29-1 columns C86 covers saving."
  },
  {
   "property": "C90",
   "status": "proved",
   "theorems": [
    "C90_best_split"
   ],
   "note": "Rounding errors bounded for all histograms. C52 (refuted) shows that some error is unavoidable; the theorem C80 about the command line uses the same notion."
  },
  {
   "property": "C91",
   "status": "proved",
   "theorems": [
    "C91_two_tone"
   ],
   "note": "All sizes below 2^32 pixels."
  },
  {
   "property": "C92",
   "status": "proved",
   "theorems": [
    "C92_detect",
    "C92_draw",
    "C92_main"
   ],
   "note": "The three outcomes (program ended, undefined for fewer than four peaks, corners found) are all described; C50_black_refuted exhibits the second. No picture with four peaks is computed inside Coq, so the third outcome is not exhibited. All allocations are assumed to succeed."
  },
  {
   "property": "C93",
   "status": "proved",
   "theorems": [
    "C93_position"
   ],
   "note": "Stated about every call in which allocations succeed. No concrete picture with four peaks is computed inside Coq."
  },
  {
   "property": "C94",
   "status": "partial",
   "theorems": [
    "C94_extract_to_partial"
   ],
   "note": "Missing: matrices that are not tame (C74 shows these can be undefined) and the error with which the matrix maps the corners (C48, refuted in general). The matrix itself is described as the result of the modelled fcv_calculate_perspective_transform."
  },
  {
   "property": "C95",
   "status": "partial",
   "theorems": [
    "C95_extract_partial"
   ],
   "note": "The size is proved for all corners (within 0.51 of the longer sides, at least 100). Missing for the contents: as for C94, and sizes above 32768."
  },
  {
   "property": "C96",
   "status": "proved",
   "theorems": [
    "C96_turn_tones"
   ],
   "note": "All seven turnings and four tone functions, up to 2^30 pixels."
  },
  {
   "property": "C97",
   "status": "proved",
   "theorems": [
    "C97_turn_edges"
   ],
   "note": "RGBA pictures (4 channels) with sides below 2^31."
  },
  {
   "property": "C98",
   "status": "proved",
   "theorems": [
    "C98_turn_histogram"
   ],
   "note": "RGBA pictures; whenever both calls succeed."
  },
  {
   "property": "C99",
   "status": "proved",
   "theorems": [
    "C99_crop_border",
    "C99_trim_border"
   ],
   "note": "1, 3 and 4 channels."
  },
  {
   "property": "C100",
   "status": "proved",
   "theorems": [
    "C100_dilation_radius",
    "C100_erosion_radius",
    "C100_erosion_dual",
    "C100_dilation_erosion",
    "C100_dilation_twice"
   ],
   "note": "Near the edge erosion treats outside pixels as black, so the dualities are stated away from it."
  },
  {
   "property": "C101",
   "status": "partial",
   "theorems": [
    "C101_single_refuted",
    "C101_single_partial",
    "C101_double"
   ],
   "note": "REFUTED in single mode: in a white picture of 4001 x 4999 pixels with one black pixel the threshold is 255 and everything comes out black. Proved: single mode up to 2^24 pixels, double mode for all sizes below 2^32 pixels."
  },
  {
   "property": "C102",
   "status": "proved",
   "theorems": [
    "C102_order",
    "C102_twice",
    "C102_circle_disk"
   ],
   "note": "Finite centres and radii within the range of C23."
  },
  {
   "property": "C103",
   "status": "proved",
   "theorems": [
    "C103_arguments",
    "C103_table"
   ],
   "note": "The table is a heap block that realloc moves and that doubles; C103_arguments runs create_pipeline, parse_pipeline, the reading of the entries and free_pipeline, and compares with the plain-value parser of M_Parse. At most 2^30 bytes of arguments (beyond 2^30 operations the int capacity overflows; the operating system's limit on arguments is far below). C103_table is the same for any sequence of add_operation."
  },
  {
   "property": "C104",
   "status": "partial",
   "theorems": [
    "C104_memory_refuted",
    "C104_joined_partial"
   ],
   "note": "REFUTED: the results of both mallocs of create_pipeline, of realloc in add_operation and of strdup in parse_pipeline are used unchecked (null dereference). Only the malloc of the joined arguments is checked: C104_joined_partial."
  },
  {
   "property": "C105",
   "status": "proved",
   "theorems": [
    "C105_pictures",
    "C105_throws",
    "C105_gray",
    "C105_multichannel",
    "C105_blur",
    "C105_smart",
    "C105_sobel_gray",
    "C105_crop",
    "C105_resize",
    "C105_trim",
    "C105_trim_threshold",
    "C105_border",
    "C105_histogram",
    "C105_matrix"
   ],
   "note": "Spec_Haskell.hs_returns: length, contents, readability of every element and release, from the C contracts (C01\u2013C04, C06, C08, C09, C11, C13, C16, C18, C26, C27, C43, C45, C46, C49, C71) under their hypotheses; `calls f w h b` says that the bytes are those of a run of the C function. Vectors are whole blocks (no slices)."
  },
  {
   "property": "C106",
   "status": "partial",
   "theorems": [
    "C106_sobel_refuted",
    "C106_corner_refuted",
    "C106_morphology_refuted",
    "C106_binary_refuted"
   ],
   "note": "REFUTED, for every picture: the binding assumes four channels (for sobelEdgeDetection: as many as its input), the C functions return one (foerstnerCorner: two), so that each returned vector reaches past its memory."
  },
  {
   "property": "C107",
   "status": "partial",
   "theorems": [
    "C107_short_refuted"
   ],
   "note": "REFUTED: no function compares the vector's length with the size; a vector of one pixel passed as a picture of 2x1 is read (drawDisk: its copy written) out of bounds."
  },
  {
   "property": "C108",
   "status": "partial",
   "theorems": [
    "C108_fallback_refuted",
    "C108_point_refuted",
    "C108_transform_partial"
   ],
   "note": "REFUTED: when the C function falls back it returns a static matrix, which the binding passes to free: for every quadrilateral with a coordinate that is not finite, and e.g. for a source that is a single point. Otherwise the matrix of the C function is returned and memory is as before (C108_transform_partial, unless the C function's own allocation fails, see C76)."
  },
  {
   "property": "C109",
   "status": "partial",
   "theorems": [
    "C109_leak_refuted",
    "C109_watershed_partial"
   ],
   "note": "REFUTED: when the C function returns NULL (no markers, a marker outside the picture, width or height 0), withImageData throws before the markers are released. C109_watershed_partial proves the rest when memory is available."
  },
  {
   "property": "C110",
   "status": "proved",
   "theorems": [
    "C110_threshold",
    "C110_circle",
    "C110_disk"
   ],
   "note": "thaw's copy is a fresh block; the statement that only the new block changed (new_vec) includes the vector passed in."
  },
  {
   "property": "C111",
   "status": "partial",
   "theorems": [
    "C111_large_refuted"
   ],
   "note": "REFUTED: the length is a Word32 product, which wraps: a picture of 32768x32768 gives a vector of length 0."
  },
  {
   "property": "C112",
   "status": "partial",
   "theorems": [
    "C112_detect_partial",
    "C112_empty_refuted",
    "C112_black_refuted"
   ],
   "note": "REFUTED: sizes of 0 and pictures without background end the whole program (C function calls exit), every black picture is undefined behaviour (C112_black_refuted), and each successful call leaks the two blocks of C50. C112_detect_partial proves the rest: position, order, and release of the structure."
  },
  {
   "property": "C113",
   "status": "partial",
   "theorems": [
    "C113_extract_partial",
    "C113_auto_partial"
   ],
   "note": "Proved in the same extent as C94 and C95, on which it rests: missing are matrices that are not tame and how exactly the matrix maps the corners; the two leaked blocks of C50 remain."
  },
  {
   "property": "C114",
   "status": "proved",
   "theorems": [
    "C114_history",
    "C114_released"
   ],
   "note": "[run] executes the history, [amounts] is its meaning on contents alone; both are in Spec_HsHistory. That the caller's sizes match the length is built into [step] (see C107 for what happens otherwise). Sequential programs only."
  },
  {
   "property": "C115",
   "status": "partial",
   "theorems": [
    "C115_worker_partial",
    "C115_no_memory_refuted"
   ],
   "note": "REFUTED: when malloc fails for the copy of the picture, its bytes are written from address 0 on (C115_no_memory_refuted). C115_worker_partial proves the rest, for all other patterns of failing allocations."
  },
  {
   "property": "C116",
   "status": "proved",
   "theorems": [
    "C116_schedule",
    "C116_no_memory",
    "C116_settles",
    "C116_no_module"
   ],
   "note": "[requests] lists the clicks of the run with the picture and the module's state at the time; [answered] and [shows] (Spec_Web) say what must appear. C116_settles: the quiet state is reached. C116_no_memory states what remains true when allocations fail. C116_no_module: if the module cannot be loaded, only messages appear."
  },
  {
   "property": "C117",
   "status": "partial",
   "theorems": [
    "C117_spinner_partial",
    "C117_polite_partial",
    "C117_spinner_refuted"
   ],
   "note": "REFUTED: after two clicks on a button the first answer hides the spinner although the second click is not answered. The other direction is C117_spinner_partial; C117_polite_partial proves both directions if no button is clicked while its last request is waiting."
  },
  {
   "property": "C118",
   "status": "partial",
   "theorems": [
    "C118_picture_partial",
    "C118_picture_refuted"
   ],
   "note": "REFUTED: the default picture replaces the user's if it arrives later; from its arrival on the property holds (C118_picture_partial), as it arrives at most once."
  },
  {
   "property": "C119",
   "status": "partial",
   "theorems": [
    "C119_early_refuted",
    "C119_same_id_refuted"
   ],
   "note": "REFUTED: loading a file enables the buttons before the module is loaded, and clicks then fail although the module gets loaded; clicks with equal ids lose an answer. That clicks made after the module was loaded lead to a picture is part of C116_schedule."
  },
  {
   "property": "C120",
   "status": "proved",
   "theorems": [
    "C120_sequences",
    "C120_back",
    "C120_laid"
   ],
   "note": "The sheet of paper is Spec_Seq.turn_sheet, written without reference to coordinates. C120_laid says where each pixel of the result comes from."
  },
  {
   "property": "C121",
   "status": "proved",
   "theorems": [
    "C121_mixed"
   ],
   "note": "RGBA pictures up to 2^30 pixels, as C96."
  },
  {
   "property": "C122",
   "status": "proved",
   "theorems": [
    "C122_pipeline",
    "C122_program"
   ],
   "note": "The sheet of paper is Spec_Seq.turn_sheet; where its pixels lie is Spec_Seq.laid. The program's reader and writer of image formats are oracles, as in C86."
  },
  {
   "property": "C123",
   "status": "proved",
   "theorems": [
    "C123_mixed"
   ],
   "note": "Parameters that suit the picture: Spec_Apply.ready, as in C80. The operations are Spec_SeqCli.evenhanded."
  },
  {
   "property": "C124",
   "status": "proved",
   "theorems": [
    "C124_turn_crop"
   ],
   "note": "Where the rectangle is after turning: Spec_Turn.turned_left, turned_top."
  },
  {
   "property": "C125",
   "status": "partial",
   "theorems": [
    "C125_mirror_partial",
    "C125_quarter_partial",
    "C125_quarter_refuted",
    "C125_mirror_refuted"
   ],
   "note": "REFUTED: columns are trimmed before rows, so after a quarter turn other parts of the picture may be cut off; a picture whose columns are each of one colour keeps its right column, mirrored or not. Proved for flips and the half turn when some row of the trimmed picture has two colours (C125_mirror_partial), and for quarter turns and transposing when trimming either result again changes nothing and two columns are left (C125_quarter_partial)."
  },
  {
   "property": "C126",
   "status": "proved",
   "theorems": [
    "C126_grayscale",
    "C126_dilation",
    "C126_erosion",
    "C126_closing",
    "C126_opening",
    "C126_blur",
    "C126_to_gray",
    "C126_multichannel",
    "C126_binary"
   ],
   "note": "Distances to the sides: Spec_Tile.knows. C126_margin_ex shows that one radius is not enough for closing."
  },
  {
   "property": "C127",
   "status": "proved",
   "theorems": [
    "C127_dilation",
    "C127_erosion",
    "C127_twice_dilation",
    "C127_twice_erosion"
   ],
   "note": "C127_ex shows that r + s does not suffice: two dilations by 1 are not one by 2."
  },
  {
   "property": "C128",
   "status": "proved",
   "theorems": [
    "C128_draw_crop"
   ],
   "note": "The integer parts of the centres must differ by the position of the rectangle: a centre coordinate in (-1, 0) counts as 0, as in C23."
  },
  {
   "property": "C129",
   "status": "partial",
   "theorems": [
    "C129_circle",
    "C129_disk_partial",
    "C129_disk_refuted"
   ],
   "note": "REFUTED: a disk of radius 0 covers its centre and two rows of three pixels, so it is not the same after a quarter turn (C129_disk_refuted). Proved for circles of all radii, and for disks of radius at least 1, or of any radius if rows and columns are not exchanged."
  },
  {
   "property": "C130",
   "status": "proved",
   "theorems": [
    "C130_borders"
   ],
   "note": "Beyond 2^32 bytes the indices of fcv_add_border wrap (C56)."
  },
  {
   "property": "C131",
   "status": "partial",
   "theorems": [
    "C131_hidden_partial",
    "C131_hidden_refuted",
    "C131_circle_partial"
   ],
   "note": "REFUTED: a disk of radius 0 covers pixels (the corners of its 3x3 square) that one of radius 1 does not (C131_hidden_refuted). Proved for all smaller disks and circles of radius at least 1."
  }
 ]
}