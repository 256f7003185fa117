{"id": "C01", "title": "flip_x mirrors the image left-right", "statement": "fcv_flip_x(w,h,data) either returns NULL (only if data is NULL, w or h is 0, the byte size does not fit in size_t, or malloc fails) leaving memory untouched, or returns a new w*h*4-byte buffer, fully initialised, in which pixel (x,y) equals pixel (w-1-x,y) of the input on all four channels. The input buffer is unchanged, nothing is leaked and no access is out of bounds.", "quantifier": "every width and height representable in uint32_t, every input pixel buffer of the right size, and every malloc success/failure pattern", "why_tests_cant": "A test fixes one size and one picture; index arithmetic errors, overflow and malloc-failure paths only show at other sizes.", "anchors": ["src/flip.c:fcv_flip_x"]}
{"id": "C02", "title": "flip_y mirrors the image top-bottom", "statement": "Same contract as C01 for fcv_flip_y: output pixel (x,y) is input pixel (x,h-1-y).", "quantifier": "every width and height representable in uint32_t, every input pixel buffer of the right size, and every malloc success/failure pattern", "why_tests_cant": "Must hold at every size and allocation outcome.", "anchors": ["src/flip.c:fcv_flip_y"]}
{"id": "C03", "title": "transpose and transverse reflect along the diagonals", "statement": "fcv_transpose returns the h-by-w image whose pixel (x,y) is input pixel (y,x); fcv_transverse returns the h-by-w image whose pixel (x,y) is input pixel (w-1-y,h-1-x). Same memory contract as C01.", "quantifier": "every width and height representable in uint32_t, every input pixel buffer of the right size, and every malloc success/failure pattern", "why_tests_cant": "Square test images hide swapped strides; only a proof for all w,h excludes them.", "anchors": ["src/flip.c:fcv_transpose", "src/flip.c:fcv_transverse"]}
{"id": "C04", "title": "rotations by 90, 180 and 270 degrees clockwise are exact", "statement": "fcv_rotate_90_cw returns the h-by-w image whose pixel (x,y) is input (y,h-1-x); fcv_rotate_180 the w-by-h image whose pixel (x,y) is input (w-1-x,h-1-y); fcv_rotate_270_cw the h-by-w image whose pixel (x,y) is input (w-1-y,x). Same memory contract as C01.", "quantifier": "every width and height representable in uint32_t, every input pixel buffer of the right size, and every malloc success/failure pattern", "why_tests_cant": "As C03.", "anchors": ["src/rotate.c"]}
{"id": "C05", "title": "The eight orientation functions obey the symmetry group of the square", "statement": "Applying flip_x twice, flip_y twice, transpose twice, transverse twice, rotate_180 twice, rotate_90 four times, or rotate_90 then rotate_270 returns exactly the original bytes; flip_x then flip_y equals rotate_180; transpose then flip_x equals rotate_90; transpose then flip_y equals rotate_270; transpose then rotate_180 equals transverse.", "quantifier": "every width and height representable in uint32_t, every input pixel buffer of the right size, and every malloc success/failure pattern; any call sequence of these functions in which no call returned NULL", "why_tests_cant": "Round trips must hold for every picture and every size, not for one sample.", "anchors": ["src/flip.c", "src/rotate.c"]}
{"id": "C06", "title": "crop returns exactly the requested rectangle and rejects everything else", "statement": "fcv_crop(w,h,ch,data,x,y,cw,chh) returns a fresh buffer holding exactly the pixels of the rectangle when it is non-empty and lies inside the image (and malloc succeeds); it returns NULL for every rectangle that is empty or leaves the image, even when x+cw or y+ch would wrap around in 32 bits. No out-of-bounds read for any arguments.", "quantifier": "every uint32_t width, height, channels, x, y, crop width, crop height; every image; every malloc outcome", "why_tests_cant": "Wrap-around of x+width is only hit for specific huge values.", "anchors": ["src/crop.c:fcv_crop"]}
{"id": "C07", "title": "crops compose", "statement": "Cropping a crop yields the same bytes as one crop with the offsets added, whenever both inner crops succeed; cropping the full rectangle copies the image.", "quantifier": "all images and all pairs of nested rectangles", "why_tests_cant": "Relational property over two calls and all rectangles.", "anchors": ["src/crop.c:fcv_crop"]}
{"id": "C08", "title": "trim removes exactly the uniform border", "statement": "fcv_trim returns the crop of the input to the rectangle obtained by dropping the leading and trailing columns in which every pixel equals the border colour sample of that column side, then rows likewise inside the remaining columns, never going below one pixel; *width and *height are updated to the result's dimensions. In particular every dropped pixel row or column is single-coloured.", "quantifier": "every image with channels>=1 whose pixel count times channels fits in 32 bits; every malloc outcome", "why_tests_cant": "The loops' boundaries interact (left < right, top < bottom) on degenerate images that tests rarely include.", "anchors": ["src/trim.c:fcv_trim"]}
{"id": "C09", "title": "trim_threshold generalises trim", "statement": "fcv_trim_threshold keeps the same contract with colour equality replaced by per-channel difference within the tolerance; with tolerance 0 it returns exactly what fcv_trim returns; a larger tolerance trims at least as much on the first side processed.", "quantifier": "every image, every tolerance", "why_tests_cant": "Relational between two functions and all tolerances.", "anchors": ["src/trim.c:fcv_trim_threshold"]}
{"id": "C10", "title": "trim is idempotent", "statement": "Trimming an already trimmed image changes nothing.", "quantifier": "every image", "why_tests_cant": "A statement over all images; a counterexample needs search, a confirmation needs proof.", "anchors": ["src/trim.c:fcv_trim"]}
{"id": "C11", "title": "grayscale computes the documented luma and keeps the picture opaque", "statement": "For images of at most 2^30 pixels fcv_grayscale returns a fresh RGBA image in which R=G=B=(76R+150G+30B)/256 rounded down of the input pixel and alpha is 255; gray values stay between the smallest and largest of R,G,B of that pixel; applying it twice equals applying it once.", "quantifier": "every image with w*h <= 2^30, every malloc outcome", "why_tests_cant": "All 2^24 colours times all positions.", "anchors": ["src/conversion.c:fcv_grayscale"]}
{"id": "C12", "title": "grayscale works for every image that fits in memory", "statement": "The C11 contract holds for every w,h whose byte size fits in size_t.", "quantifier": "every width and height representable in uint32_t, every input pixel buffer of the right size, and every malloc success/failure pattern", "why_tests_cant": "Only images over 2^30 pixels reveal 32-bit index wrap; no test allocates that.", "anchors": ["src/conversion.c:fcv_grayscale"]}
{"id": "C13", "title": "single-channel conversions round-trip", "statement": "fcv_rgba_to_grayscale computes (76R+150G+30B)>>8 per pixel into a w*h buffer; fcv_single_to_multichannel replicates the value into RGB with alpha 255; converting a single-channel image to RGBA and back returns the original bytes, for every size that fits in size_t.", "quantifier": "every width and height representable in uint32_t, every input pixel buffer of the right size, and every malloc success/failure pattern", "why_tests_cant": "Round trip over all byte strings.", "anchors": ["src/rgba_to_grayscale.c", "src/single_to_multichannel.c"]}
{"id": "C14", "title": "parse_hex_color decodes every RRGGBB string and rejects the rest", "statement": "For every NUL-terminated string: with an optional leading '#', exactly six hexadecimal digits in any case decode to the corresponding three bytes; every other string yields white (255,255,255). No read past the terminator.", "quantifier": "every C string", "why_tests_cant": "Infinite input domain.", "anchors": ["src/parse_hex_color.c:fcv_parse_hex_color"]}
{"id": "C15", "title": "convert_to_binary marks exactly the foreground-coloured pixels", "statement": "fcv_convert_to_binary returns a w*h buffer where a byte is 255 iff the pixel's R,G,B equal the foreground colour and 0 otherwise (as documented).", "quantifier": "every width and height representable in uint32_t, every input pixel buffer of the right size, and every malloc success/failure pattern; every pair of colour strings", "why_tests_cant": "All pictures and all colour strings.", "anchors": ["src/convert_to_binary.c"]}
{"id": "C16", "title": "grayscale_stretch is a monotone per-pixel mapping clamped to the percentile range", "statement": "For every image below 2^30 pixels fcv_grayscale_stretch maps equal gray levels to equal output levels, darker never becomes brighter than lighter, values outside the trimmed percentile range saturate to 0/255, alpha is 255, and no division by zero or out-of-range conversion happens.", "quantifier": "every RGBA image with w*h < 2^30, every malloc outcome", "why_tests_cant": "Depends on the whole histogram.", "anchors": ["src/conversion.c:fcv_grayscale_stretch"]}
{"id": "C17", "title": "grayscale_stretch terminates on every image that fits in memory", "statement": "fcv_grayscale_stretch terminates for every w,h whose byte size fits in size_t.", "quantifier": "every width and height representable in uint32_t, every input pixel buffer of the right size, and every malloc success/failure pattern", "why_tests_cant": "Non-termination cannot be tested, and needs 2^32 pixels.", "anchors": ["src/conversion.c:fcv_grayscale_stretch"]}
{"id": "C18", "title": "Otsu thresholding yields a two-valued, monotone picture", "statement": "fcv_otsu_threshold_rgba(...,use_double_threshold=false) returns RGBA with R=G=B in {0,255}, alpha 255, and there is one threshold t in 0..255 depending only on the gray histogram so that a pixel is white iff its gray level exceeds t. Images that are pixel permutations of one another are thresholded identically.", "quantifier": "every image with w*h <= 2^30, every malloc outcome", "why_tests_cant": "Threshold depends on all pixels and floating-point rounding.", "anchors": ["src/conversion.c:fcv_otsu_threshold_rgba", "src/conversion.c:fcv_apply_global_threshold"]}
{"id": "C19", "title": "Double threshold keeps the order of gray levels", "statement": "With use_double_threshold=true the output gray level is a non-decreasing function of the input gray level: below t-16 black, above t+16 white, linear between.", "quantifier": "every image", "why_tests_cant": "Wrap-around of t-16 / t+16 in uint8_t happens only for some histograms.", "anchors": ["src/conversion.c:fcv_apply_double_threshold", "src/conversion.c:fcv_otsu_threshold_rgba"]}
{"id": "C20", "title": "dilation and erosion are the disk maximum and minimum", "statement": "fcv_binary_dilation_disk returns a fresh w*h-byte picture with values in {0,255} in which a pixel is 255 iff some pixel of the input inside the disk 4(dx^2+dy^2) <= (2r+1)^2 around it is 255; fcv_binary_erosion_disk makes a pixel 255 iff the whole disk around it lies inside the picture and is 255 everywhere; no overflow or out-of-bounds access.", "quantifier": "every image with positive int dimensions, w*h <= INT_MAX, radius 0..32767 with w+r and h+r at most 2^31, every malloc outcome", "why_tests_cant": "Border handling times radius times picture.", "anchors": ["src/binary_closing_disk.c"]}
{"id": "C21", "title": "closing is extensive, opening is anti-extensive, both are increasing", "statement": "On binary images closing keeps every white pixel white, opening keeps every black pixel black, and white(A) subset white(B) implies white(op A) subset white(op B). Opening is the dilation of the erosion, closing the erosion of the dilation, with no memory leaked on any allocation failure.", "quantifier": "all binary images, radii and malloc outcomes", "why_tests_cant": "Lattice laws over all images.", "anchors": ["src/binary_closing_disk.c:fcv_binary_closing_disk", "src/binary_closing_disk.c:fcv_binary_opening_disk"]}
{"id": "C22", "title": "opening and closing are idempotent", "statement": "Opening an opened image and closing a closed image with the same radius change nothing.", "quantifier": "all binary images and radii", "why_tests_cant": "Algebraic law over all images.", "anchors": ["src/binary_closing_disk.c"]}
{"id": "C23", "title": "drawing circles and disks never touches memory outside the image or pixels of another colour", "statement": "fcv_draw_circle/fcv_draw_disk on any image with 1, 3 or 4 channels and any in-range centre and radius change only pixels within the image; every changed pixel gets exactly the parsed colour (and opaque alpha); pixels farther from the centre than the radius (plus rasterisation slack) are unchanged.", "quantifier": "every image, colour string, finite centre in int range, radius", "why_tests_cant": "Clipping at all four borders for every radius.", "anchors": ["src/draw.c"]}
{"id": "C24", "title": "a disk has no holes and contains the circle", "statement": "Every pixel drawn by fcv_draw_circle for a radius and centre is also drawn by fcv_draw_disk; each drawn disk row is a contiguous run containing the centre column.", "quantifier": "all centres, radii", "why_tests_cant": "Geometric invariant of an integer recurrence.", "anchors": ["src/draw.c:fcv_draw_disk", "src/draw.c:fcv_draw_circle"]}
{"id": "C25", "title": "drawing a circle or disk of radius 0 paints one pixel", "statement": "fcv_draw_circle and fcv_draw_disk with radius 0 paint exactly the centre pixel.", "quantifier": "radius 0, every image", "why_tests_cant": "A specific intended corner case that the code may violate; the model decides it.", "anchors": ["src/draw.c"]}
{"id": "C26", "title": "add_border surrounds the picture unchanged", "statement": "fcv_add_border returns a (w+2b)-by-(h+2b) image whose interior equals the input, whose border ring has the parsed colour, sets the output dimensions accordingly, and rejects sizes that do not fit.", "quantifier": "every image with 1,3 or 4 channels whose output byte size is at most 2^32, every border width and colour, every malloc outcome", "why_tests_cant": "Overflow and stride arithmetic.", "anchors": ["src/draw.c:fcv_add_border"]}
{"id": "C27", "title": "histogram bars are proportional to counts", "statement": "fcv_generate_histogram returns a 256x200 opaque image in which the bar of bin v has height floor(count(v)*200/max count), so the fullest bin reaches the top; out dims are 256x200.", "quantifier": "every image whose largest bin count is at most 21474836, 1, 3 or 4 channels, every malloc outcome", "why_tests_cant": "Counting over all pixels.", "anchors": ["src/histogram.c"]}
{"id": "C28", "title": "histogram bars are correct for all image sizes", "statement": "The C27 contract holds without a bound on the counts.", "quantifier": "every image", "why_tests_cant": "32-bit overflow of count*200 needs a >21 megapixel uniform picture.", "anchors": ["src/histogram.c"]}
{"id": "C29", "title": "EXIF orientation is read back from every well-formed file", "statement": "For every file whose JPEG marker chain reaches an APP1 Exif segment with a little- or big-endian TIFF header and a first IFD containing the orientation tag as a SHORT, fcv_get_exif_orientation returns that value; files without it give 1.", "quantifier": "every byte sequence of that shape", "why_tests_cant": "Binary format with arbitrary preceding segments and entries.", "anchors": ["src/exif.c"]}
{"id": "C30", "title": "EXIF reader terminates on every file", "statement": "fcv_get_exif_orientation terminates for every file content.", "quantifier": "every finite byte sequence", "why_tests_cant": "Termination on all malformed files.", "anchors": ["src/exif.c"]}
{"id": "C31", "title": "EXIF reader result is 1..8", "statement": "fcv_get_exif_orientation returns a value in 1..8 for every file on which it terminates (as its header documents).", "quantifier": "every finite byte sequence", "why_tests_cant": "All malformed files.", "anchors": ["src/exif.c", "include/exif.h"]}
{"id": "C32", "title": "watershed terminates and labels by flooding from the markers", "statement": "For every gray picture of up to 2^30 pixels and every list of markers whose coordinates fit in an int, fcv_watershed_segmentation ends without undefined behaviour; it returns NULL without effect if some marker is not finite or outside the picture. Otherwise (and without create_boundaries) every pixel belongs to the region of one marker, each region is connected and contains its marker, and the regions are those of rising water: whenever water at level j reaches a pixel from any marker at all, it also reaches it from the pixel's own marker without leaving the pixel's region. It returns a fresh buffer, or NULL only if an allocation fails, and leaks nothing.", "quantifier": "every gray image with w*h <= 2^30, every marker list with coordinates in int range, every malloc outcome", "why_tests_cant": "Queue-driven flooding with data-dependent order.", "anchors": ["src/watershed_segmentation.c"]}
{"id": "C33", "title": "watershed keeps markers and paints only table colours", "statement": "Every valid, distinct marker pixel keeps its own label/colour; every output pixel is opaque and has the colour of one of the labels, black boundary or unlabelled colour.", "quantifier": "as C32", "why_tests_cant": "As C32.", "anchors": ["src/watershed_segmentation.c"]}
{"id": "C34", "title": "watershed boundaries separate regions", "statement": "With create_boundaries, two horizontally or vertically adjacent pixels never belong to different regions: touching regions are always separated by black pixels; and black pixels occur only where at least two regions meet or where no region reaches.", "quantifier": "as C32", "why_tests_cant": "Order-dependent.", "anchors": ["src/watershed_segmentation.c"]}
{"id": "C35", "title": "corner peaks are local maxima above threshold and mutually separated", "statement": "fcv_corner_peaks returns points that are >= min_distance apart, lie inside the border margin, are local maxima of the response and exceed the relative threshold; the strongest candidate is always kept.", "quantifier": "every response image, min_distance, threshold; every malloc outcome", "why_tests_cant": "Greedy suppression over all candidate sets.", "anchors": ["src/corner_peaks.c"]}
{"id": "C36", "title": "sort_corners returns its points clockwise from the top-left one", "statement": "For four or more points sort_corners writes exactly the input points, each once, to the result array (which may be the input array) and nothing beyond. If the coordinates are at most 2^31 and the directions from the centre to the points are at least 10^-6 apart, they are in clockwise order starting at the one with the smallest x+y. Three points are completed to four, three corners of an upright rectangle by its fourth corner; fewer than three give zeros. The corners returned are the first four scaled by width/out_width and height/out_height. On allocation failure zeros are returned; nothing leaks.", "quantifier": "all point lists, coordinates, sizes and allocation behaviours", "why_tests_cant": "Floating-point ordering, all inputs.", "anchors": ["src/sort_corners.c"]}
{"id": "C37", "title": "CLI geometry strings round-trip", "statement": "For every width, height (1..2^32-1) and x,y in int range the string WxH+X+Y parses back to exactly those numbers; malformed strings are rejected.", "quantifier": "every uint32 pair and int32 pair", "why_tests_cant": "Infinite string domain.", "anchors": ["src/cli.c:parse_geometry"]}
{"id": "C38", "title": "quoted and unquoted CLI pipelines mean the same", "statement": "parse_pipeline gives the same operations for the arguments joined in one string as for the split words; the combined buffer never overflows; the operations appear in order with their parameters.", "quantifier": "every argument list", "why_tests_cant": "All argument splittings.", "anchors": ["src/cli.c:parse_pipeline", "README.md"]}
{"id": "C39", "title": "pipeline parameters reach the operation unmodified", "statement": "Operation names and string parameters arrive at the operation exactly as typed.", "quantifier": "every argument list", "why_tests_cant": "Truncation only shows on long parameters.", "anchors": ["src/cli.c"]}
{"id": "C40", "title": "executing a pipeline neither leaks nor double-frees", "statement": "execute_pipeline frees every intermediate image exactly once, never frees the caller's input, returns either NULL with all intermediates freed or the final image, whatever each operation returns.", "quantifier": "every pipeline, every operation outcome (success or NULL), every malloc outcome", "why_tests_cant": "All failure points of all pipelines.", "anchors": ["src/cli.c:execute_pipeline"]}
{"id": "C41", "title": "rotate accepts every multiple of 90", "statement": "The CLI rotate operation rotates by the angle modulo 360 for every integer multiple of 90 including negative ones, and the output dimensions are swapped iff the rotation is by an odd multiple of 90.", "quantifier": "every int angle", "why_tests_cant": "All ints.", "anchors": ["src/cli.c:apply_operation"]}
{"id": "C42", "title": "EXIF orientation is undone exactly", "statement": "For orientation values 2..8 the CLI applies the transformation prescribed by the EXIF standard so that the stored pixel at each position lands where the standard says, with matching dimensions.", "quantifier": "every image and orientation", "why_tests_cant": "All images.", "anchors": ["src/cli.c:main"]}
{"id": "C43", "title": "resize output dimensions and scale-1 identity", "statement": "fcv_resize reports trunc(w*rx) x trunc(h*ry) and returns a buffer of exactly that size, all opaque, in which every colour lies between the smallest and the largest colour of the source pixels around the corresponding position (or is 0 when one factor enlarges and the other shrinks, see C66); with both factors 1.0 the RGB values are unchanged; bad factors give NULL.", "quantifier": "every image and factor", "why_tests_cant": "Float arithmetic, all images.", "anchors": ["src/conversion.c:fcv_resize"]}
{"id": "C44", "title": "resize to an absolute size gives that size", "statement": "The CLI operation 'resize WxH' yields an image of exactly W by H.", "quantifier": "every source and target size", "why_tests_cant": "Rounding of w*(W/w) for particular pairs only.", "anchors": ["src/cli.c", "src/conversion.c:fcv_resize"]}
{"id": "C45", "title": "sobel output is normalised and ignores constant images", "statement": "fcv_sobel_edge_detection of a grayscale or RGBA picture with fewer than 2^31 columns and rows yields w*h bytes: every value is the edge strength (length of the Sobel gradient of the gray picture, border pixels continued outwards) scaled between the weakest (0) and the strongest (255) of the picture and rounded down; a stronger edge never gets a smaller value; if all edges are equally strong (e.g. a constant picture) the result is black. NULL data and empty pictures are rejected; failed allocations give NULL without leaks.", "quantifier": "every image", "why_tests_cant": "Float normalisation, all images.", "anchors": ["src/sobel_edge_detection.c"]}
{"id": "C46", "title": "Gaussian blur: bell-weighted mean of the neighbourhood; radius 0 copies; invalid radii are rejected", "statement": "fcv_apply_gaussian_blur returns an opaque picture whose channels are, up to rounding down once per pass, the means of the neighbourhood weighted by a bell curve, never above the maximum of the input channel and at most 2 below its minimum; with radius 0 it returns a copy; NULL data, zero sizes, negative, non-finite or >1000 radii give NULL.", "quantifier": "every picture with at most 2^32 bytes, every radius from 10^-12 to 1000; exp as an oracle accurate to 2^-40", "why_tests_cant": "Float accumulation, all images.", "anchors": ["src/conversion.c:fcv_apply_gaussian_blur"]}
{"id": "C47", "title": "blur leaves a constant picture unchanged", "statement": "Blurring a single-coloured picture returns the same colour.", "quantifier": "every colour, size and radius", "why_tests_cant": "Truncation after float accumulation.", "anchors": ["src/conversion.c:fcv_apply_gaussian_blur"]}
{"id": "C48", "title": "perspective transform maps the source corners to the destination corners", "statement": "When the solver accepts, the matrix returned by fcv_calculate_perspective_transform satisfies the eight linear equations in exact arithmetic; otherwise identity is returned and no NaN or huge coefficient escapes.", "quantifier": "all corner configurations", "why_tests_cant": "All real configurations.", "anchors": ["src/perspectivetransform.c"]}
{"id": "C49", "title": "apply_matrix_3x3: identity copies, half-turn rotates, outside is transparent", "statement": "fcv_apply_matrix_3x3 with the identity returns the image (equal size); samples outside the input are transparent black; output bytes stay within the range of the neighbouring input pixels.", "quantifier": "all images and matrices", "why_tests_cant": "Float, all images.", "anchors": ["src/perspectivetransform.c"]}
{"id": "C50", "title": "corner detection is memory-safe for every number of peaks", "statement": "fcv_detect_corners performs no out-of-bounds or uninitialised access for any image, whatever number of corner peaks is found.", "quantifier": "every image", "why_tests_cant": "Only pictures with exactly 0-3 peaks trigger it.", "anchors": ["src/corner_detection.c", "src/sort_corners.c"]}
{"id": "C51", "title": "Foerstner corner response is memory-safe for every image size", "statement": "fcv_foerstner_corner reads only inside its buffers for every positive width, height and sigma.", "quantifier": "every image size and sigma", "why_tests_cant": "Unsigned underflow only for tiny images.", "anchors": ["src/foerstner_corner.c"]}
{"id": "C52", "title": "Otsu thresholding separates the gray levels of a non-uniform picture", "statement": "If a picture contains at least two different gray levels, fcv_otsu_threshold_rgba(...,false) produces both black and white pixels.", "quantifier": "every RGBA image with at least two gray levels", "why_tests_cant": "Depends on float rounding of the cumulative histogram; only particular histograms reveal it.", "anchors": ["src/conversion.c:fcv_otsu_threshold_rgba"]}
{"id": "C53", "title": "Morphology accepts every non-negative radius", "statement": "fcv_binary_dilation_disk and fcv_binary_erosion_disk are defined (no signed overflow) for every radius >= 0, since negative radii are the only ones rejected.", "quantifier": "every image and every radius >= 0", "why_tests_cant": "The overflow needs a radius of 32768 or more.", "anchors": ["src/binary_closing_disk.c:fcv_binary_dilation_disk", "src/binary_closing_disk.c:binary_erosion_disk_internal"]}
{"id": "C54", "title": "Neutral grays are drawn exactly on one-channel pictures", "statement": "Drawing with a colour whose red, green and blue are all v (for instance #808080) on a one-channel picture, or adding a border of that colour, writes the level v.", "quantifier": "every level v, every picture and shape", "why_tests_cant": "Depends on the rounding of three double products and their sum for each of the 256 levels; the tests use saturated colours.", "anchors": ["src/draw.c:fcv_set_circle_pixel", "src/draw.c:fcv_add_border"]}
{"id": "C55", "title": "Every accepted drawing radius is free of overflow", "statement": "The guard 'radius > INT32_MAX/2 returns' makes fcv_draw_circle and fcv_draw_disk free of signed overflow for every radius they accept.", "quantifier": "every picture and every radius accepted by the guard", "why_tests_cant": "The overflow needs a radius above 536870911 and happens only after about 32768 steps of the loop.", "anchors": ["src/draw.c:fcv_draw_circle", "src/draw.c:fcv_draw_disk"]}
{"id": "C56", "title": "Borders of every accepted size are written completely", "statement": "Whenever fcv_add_border accepts its arguments and the allocation succeeds, every byte of the returned picture is initialised.", "quantifier": "every picture and border width accepted by the overflow guards", "why_tests_cant": "The failure needs a result of more than 4 GiB.", "anchors": ["src/draw.c:fcv_add_border"]}
{"id": "C57", "title": "EXIF reader has no undefined behaviour", "statement": "fcv_get_exif_orientation performs no undefined operation on any file content.", "quantifier": "every finite byte sequence", "why_tests_cant": "All malformed files; UB may be silent.", "anchors": ["src/exif.c:read_u32"]}
{"id": "C58", "title": "a failed EXIF rotation keeps picture and dimensions consistent", "statement": "If undoing the EXIF orientation fails for lack of memory, the CLI goes on with the stored picture and the stored picture's dimensions.", "quantifier": "every image, orientation and allocation outcome", "why_tests_cant": "Allocation failures are not exercised.", "anchors": ["src/cli.c:main"]}
{"id": "C59", "title": "CLI crop clamps the rectangle to the picture", "statement": "The crop operation treats negative offsets as 0, cuts the rectangle at the right and lower edge, copies exactly those pixels and reports the reduced dimensions; an offset beyond the picture is rejected without effect.", "quantifier": "every image, every int offset, every uint32 size", "why_tests_cant": "All rectangles.", "anchors": ["src/cli.c:apply_operation"]}
{"id": "C60", "title": "a CLI run releases every picture exactly once", "statement": "From loading the picture to exit, on every path (operation failing, write failing, success, EXIF rotation failing or not) the loaded picture, the rotated one, all intermediate results and the final result are each freed exactly once and the exit status is 0 or 1.", "quantifier": "every pipeline, operation outcome, allocation outcome and write outcome", "why_tests_cant": "All failure points.", "anchors": ["src/cli.c:main", "src/cli.c:execute_pipeline"]}
{"id": "C61", "title": "rotate has no undefined behaviour for any angle", "statement": "The CLI rotate operation either rotates or reports an error for every finite angle.", "quantifier": "every double", "why_tests_cant": "Out-of-range conversions are silent.", "anchors": ["src/cli.c:apply_operation"]}
{"id": "C62", "title": "watershed accepts every finite marker", "statement": "fcv_watershed_segmentation rejects every finite marker outside the picture by returning NULL, without undefined behaviour, however far away the marker is.", "quantifier": "every finite pair of doubles", "why_tests_cant": "Tests use markers near the picture.", "anchors": ["src/watershed_segmentation.c"]}
{"id": "C63", "title": "watershed handles every picture size", "statement": "fcv_watershed_segmentation ends for every picture size whose buffers can be allocated, and then every pixel of the returned picture has been written.", "quantifier": "every width and height", "why_tests_cant": "Tests cannot use pictures of 2^30 pixels and more.", "anchors": ["src/watershed_segmentation.c"]}
{"id": "C64", "title": "every local maximum is represented by a returned peak", "statement": "Every local maximum above the thresholds lies within min_distance of some point returned by fcv_corner_peaks.", "quantifier": "every response image, min_distance and thresholds", "why_tests_cant": "The order of pairwise suppressions matters; chains of maxima.", "anchors": ["src/corner_peaks.c"]}
{"id": "C65", "title": "sort_corners always starts at the top-left point", "statement": "For any four points the first point of the result, and the returned tl corner (up to scaling), is the point with the smallest x+y.", "quantifier": "all sets of four points", "why_tests_cant": "Fails only when another point lies in the same direction from the centre.", "anchors": ["src/sort_corners.c: sort_corners"]}
{"id": "C66", "title": "resizing a single-coloured picture keeps the colour", "statement": "If all pixels of the source have the same colour, so do all pixels of the result of fcv_resize.", "quantifier": "every size, colour and pair of factors", "why_tests_cant": "Depends on the combination of factors and on rounding of weights over all sizes.", "anchors": ["src/conversion.c:fcv_resize"]}
{"id": "C67", "title": "halving a picture averages 2x2 blocks", "statement": "With both factors 0.5 and even sides every result pixel is (up to rounding) the mean of the corresponding 2x2 block.", "quantifier": "every picture with even sides", "why_tests_cant": "Tests compare with a stored picture only.", "anchors": ["src/conversion.c:fcv_resize"]}
{"id": "C68", "title": "edge detection accepts RGB pictures with three bytes per pixel", "statement": "fcv_sobel_edge_detection with channels = 3 (documented as RGB) reads only the w*h*3 bytes of the picture.", "quantifier": "every RGB picture", "why_tests_cant": "An out-of-bounds read is silent without instrumentation and must be excluded for all sizes.", "anchors": ["src/sobel_edge_detection.c:fcv_sobel_edge_detection", "src/rgba_to_grayscale.c"]}
{"id": "C69", "title": "blurring commutes with mirroring", "statement": "Blurring a picture that equals its mirror image gives a picture that equals its mirror image (up to rounding).", "quantifier": "every symmetric picture and radius", "why_tests_cant": "The kernel is built once per radius; only whole radii are tested.", "anchors": ["src/conversion.c:fcv_apply_gaussian_blur"]}
{"id": "C70", "title": "blurring with any accepted radius is defined", "statement": "For every finite radius from 0 to 1000 fcv_apply_gaussian_blur executes no undefined operation.", "quantifier": "every finite radius, every picture", "why_tests_cant": "Underflow of the variance happens only for radii tests do not use.", "anchors": ["src/conversion.c:fcv_apply_gaussian_blur"]}
{"id": "C71", "title": "bw_smart thresholds each pixel against its surroundings", "statement": "For every RGBA picture of at most 10^8 pixels, fcv_bw_smart returns either NULL (only because an allocation failed, with nothing leaked) or a new opaque picture of the same size that equals fcv_otsu_threshold_rgba applied to the picture whose gray value at each pixel is 127 plus the pixel's luma minus the bell-curve mean of the lumas around it (radius sqrt(w*h)/10), clamped to a byte; NULL data or a zero dimension gives NULL.", "quantifier": "all sizes up to 10^8 pixels, all pixel contents, both threshold modes, all heaps and allocation-failure patterns, every exp() within the stated accuracy", "why_tests_cant": "The pipeline chains four allocations and floating-point weights depending on the size; only a proof covers every size, content and failing allocation.", "anchors": ["src/conversion.c:fcv_bw_smart", "src/conversion.c:fcv_apply_gaussian_blur", "src/conversion.c:fcv_otsu_threshold_rgba"]}
{"id": "C72", "title": "bw_smart accepts every picture that grayscale accepts", "statement": "For every picture for which fcv_grayscale succeeds and all allocations succeed, fcv_bw_smart succeeds as well.", "quantifier": "all sizes and contents, all heaps in which allocations succeed", "why_tests_cant": "The failure only appears for pictures of more than 10^8 pixels, which tests do not use.", "anchors": ["src/conversion.c:fcv_bw_smart", "src/conversion.c:fcv_apply_gaussian_blur"]}
{"id": "C73", "title": "bw_smart never inverts dark strokes on a uniform light page", "statement": "On a page of one uniform light gray with dark strokes, fcv_bw_smart makes no dark pixel lighter than a background pixel.", "quantifier": "all page sizes, all stroke shapes, all pairs of gray levels", "why_tests_cant": "Whether the order survives depends on rounding in the blur at sizes and gray levels no finite test suite enumerates.", "anchors": ["src/conversion.c:fcv_bw_smart"]}
{"id": "C74", "title": "applying a computed perspective matrix is always defined", "statement": "For every matrix returned by fcv_calculate_perspective_transform and every output size, fcv_apply_matrix_3x3 executes no undefined behaviour.", "quantifier": "all pairs of corner quadrilaterals, all pictures, all output sizes", "why_tests_cant": "The failing coordinates sit on one line of the output plane, for degenerate quadrilaterals only.", "anchors": ["src/perspectivetransform.c"]}
{"id": "C75", "title": "a matrix can be reused", "statement": "Applying the same matrix to several pictures gives, for each of them, the same result as applying it to that picture alone.", "quantifier": "all matrices, all sequences of pictures", "why_tests_cant": "It is a statement about histories of calls on pictures of different sizes.", "anchors": ["src/perspectivetransform.c"]}
{"id": "C76", "title": "perspective calculation survives lack of memory", "statement": "fcv_calculate_perspective_transform never accesses memory through a null pointer, whatever allocation fails.", "quantifier": "all corner quadrilaterals, all allocation outcomes", "why_tests_cant": "Tests do not make malloc fail.", "anchors": ["src/perspectivetransform.c"]}
{"id": "C77", "title": "resampling keeps opaque white opaque white", "statement": "Where the mapped point lies inside the picture, fcv_apply_matrix_3x3 of an opaque white picture gives opaque white.", "quantifier": "all matrices and sizes", "why_tests_cant": "Depends on the rounding of four products at arbitrary fractions.", "anchors": ["src/perspectivetransform.c"]}
{"id": "C78", "title": "No corner response on an even brightness slope", "statement": "If the brightness of a picture is an affine function of the coordinates (an even slope), so that the exact corner strength is 0 at every pixel, fcv_foerstner_corner marks no pixel as a corner: the strength channel of the returned image is 0 everywhere.", "quantifier": "all pictures whose brightness is an affine function of x and y, all sizes and all values of sigma", "why_tests_cant": "rounding noise of the tensor products depends on the slope, the window and the position; tests on flat or checkerboard pictures never see it, and the final normalisation by the maximum turns any noise into full-scale values", "anchors": ["src/foerstner_corner.c:fcv_foerstner_corner"]}
{"id": "C79", "title": "The strongest corner gets the response 255", "statement": "Whenever the picture returned by fcv_foerstner_corner is not identically 0, the pixel with the largest corner strength has the value 255 in the strength channel (the response is normalised to the full range 0..255).", "quantifier": "all pictures, sizes and values of sigma for which a response is returned", "why_tests_cant": "whether v / max * 255 truncates to 254 or to 255 depends on the rounding of the particular maximum; a test checks a few maxima", "anchors": ["src/foerstner_corner.c:fcv_foerstner_corner"]}
{"id": "C80", "title": "Every command-line operation does what its name and parameters say, and pipelines compose", "statement": "Applied to a picture it suits, each of the operations grayscale, blur, resize, threshold, bw_smart, bw_smooth, sobel, circle, disk, watershed, crop, flip_x, flip_y, rotate, trim, histogram, border, erode, dilate, close, open either yields a new picture that is the specified function of the old one and of its parameters, leaving everything else in memory as it was, or reports failure because memory ran out; a pipeline yields the composition of the effects of its operations and releases every intermediate picture.", "quantifier": "all operations with their parameters, all pictures of usual size, all pipelines, all patterns of allocation failure", "why_tests_cant": "each operation runs through parameter conversion, size bookkeeping and up to three intermediate buffers; tests run single operations on one picture with memory to spare", "anchors": ["src/cli.c:apply_operation", "src/cli.c:execute_pipeline"]}
{"id": "C81", "title": "Unknown operations and missing parameters are refused without side effects", "statement": "An operation with an unknown name, without the parameters it needs, or whose text contains no scale or marker is refused: the result is NULL and memory is exactly as before.", "quantifier": "all operation names and parameter combinations, all pictures and memory states", "why_tests_cant": "there are 25 operations with different parameter needs and error paths that free different buffers", "anchors": ["src/cli.c:apply_operation"]}
{"id": "C82", "title": "Running out of memory while copying a parameter text is reported", "statement": "When the copy of the parameter text (strdup) of resize, circle, disk or watershed fails, the operation reports failure.", "quantifier": "all operations with text parameters, all memory states", "why_tests_cant": "tests cannot make one small allocation fail", "anchors": ["src/cli.c:apply_operation"]}
{"id": "C83", "title": "Drawing works on every picture the program can hold", "statement": "circle and disk work on every picture of up to 2^30 pixels, as the other operations do.", "quantifier": "all picture sizes", "why_tests_cant": "needs pictures of half a billion pixels", "anchors": ["src/cli.c:apply_operation"]}
{"id": "C84", "title": "Numeric parameters out of range are refused", "statement": "An operation given a finite number whose integer part does not fit the integer type it is converted to (erode 3000000000, border 10000000000, ...) is refused or clamped, with defined behaviour.", "quantifier": "all finite parameter values", "why_tests_cant": "the conversion is undefined in C, so a test sees whatever the compiler happened to do", "anchors": ["src/cli.c:apply_operation"]}
{"id": "C85", "title": "Document operations are safe on every picture", "statement": "detect_corners, draw_corners, extract_document and extract_document_to have defined behaviour on every picture, in particular on an entirely black one.", "quantifier": "all pictures", "why_tests_cant": "whether uninitialised memory is read depends on the number of corner peaks; tests use pictures of documents", "anchors": ["src/cli.c:apply_operation", "src/corner_detection.c:fcv_detect_corners", "src/extract_document.c"]}
{"id": "C86", "title": "The program writes the picture that its arguments ask for", "statement": "flatcv INPUT OPERATIONS OUTPUT reads the picture, turns it upright according to its Exif orientation (for JPEG input names), applies the operations in order and writes the result to OUTPUT, as JPEG if the name ends in .jpg or .jpeg and otherwise as PNG, with a warning exactly when a binarized picture is saved as JPEG; all pictures are released; if memory runs out nothing is written and the exit status is 1; the exit status is 0 exactly if the file was written.", "quantifier": "all input pictures of usual size, orientations, pipelines that suit the picture, file names and patterns of allocation failure", "why_tests_cant": "the end-to-end result depends on parsing, orientation, every operation and the buffer ownership between them", "anchors": ["src/cli.c:main", "src/cli.c:execute_pipeline", "src/cli.c:pipeline_has_binarization"]}
{"id": "C87", "title": "Bad invocations change nothing", "statement": "With fewer than three arguments (other than INPUT detect_corners), a malformed or empty list of operations or an unreadable input, the program writes no file, leaves memory as it was and exits with status 1.", "quantifier": "all argument lists", "why_tests_cant": "unbounded space of argument lists", "anchors": ["src/cli.c:main", "src/cli.c:parse_pipeline"]}
{"id": "C88", "title": "A file is written in the format its extension names", "statement": "If the output name has an extension that the program accepts for JPEG input (.jpg, .jpeg, .JPG, .JPEG), the file is written as JPEG.", "quantifier": "all output names", "why_tests_cant": "tests use lower-case extensions", "anchors": ["src/cli.c:main"]}
{"id": "C89", "title": "Every picture an operation produces can be saved", "statement": "A picture produced by the pipeline can be written as PNG whatever its width.", "quantifier": "all sizes an operation can produce", "why_tests_cant": "needs a picture of 2^29 columns", "anchors": ["src/cli.c:main"]}
{"id": "C90", "title": "Automatic thresholding picks a threshold that separates dark from bright nearly as well as any", "statement": "The threshold used by fcv_otsu_threshold_rgba (the same in single and double mode) has a between-class variance of the gray levels within 40 square levels of the best possible one, in spite of single-precision arithmetic. In pictures of more than 32768 pixels a best variance of up to 2600 (of at most 16256) may be missed. The operations threshold, bw_smart and bw_smooth of the command line use such a threshold.", "quantifier": "all pictures with fewer than 2^32 pixels", "why_tests_cant": "rounding errors depend on the whole histogram; a test compares with a few expected pictures", "anchors": ["src/conversion.c:fcv_otsu_threshold_rgba"]}
{"id": "C91", "title": "Two-tone pictures are separated exactly", "statement": "If a picture has only two gray levels, automatic thresholding turns the darker one black and the brighter one white, provided n0*n1*(v-u)^2 >= (n0+n1)^2, where u < v are the levels and n0, n1 their numbers of pixels.", "quantifier": "all two-tone pictures with fewer than 2^32 pixels", "why_tests_cant": "must hold for every pair of levels, every mixture and every size, in floating point", "anchors": ["src/conversion.c:fcv_otsu_threshold_rgba"]}
{"id": "C92", "title": "Looking for a document changes nothing but the red disks, and detect_corners alone writes no file", "statement": "For every picture with 1 to 2^29-1 pixels and no failing allocation: unless the program is ended (no background) or fewer than four peaks are found (undefined, see C50), the operation detect_corners hands on an exact copy of the picture; draw_corners a copy in which exactly the pixels within a disk of radius min(w,h)/50 around each corner are red; and 'flatcv INPUT detect_corners' writes no file and ends with status 0. The input picture is untouched and exactly two blocks leak.", "quantifier": "all pictures up to 2^29-1 pixels, all EXIF orientations, all library functions meeting the contract", "why_tests_cant": "all pictures, and the memory history, cannot be enumerated", "anchors": ["src/cli.c:apply_operation", "src/cli.c:main", "src/corner_detection.c:fcv_detect_corners", "src/draw.c:fcv_draw_disk"]}
{"id": "C93", "title": "Corners found lie on the picture and apart from each other", "statement": "Whenever fcv_detect_corners returns, the four corners are finite, lie strictly inside the picture, and any two are at least w/22 apart horizontally or h/22 vertically, at the scale of the original picture (in spite of rounding).", "quantifier": "all pictures up to 2^30 pixels", "why_tests_cant": "rounding of the scale factors depends on the size; peaks on the contents", "anchors": ["src/corner_detection.c:fcv_detect_corners"]}
{"id": "C94", "title": "extract_document_to shows the document in the requested size", "statement": "extract_document_to WxH returns a new W x H picture whose pixels are the bilinear samples of the input at the points given by the matrix that fcv_calculate_perspective_transform computes from the corners of the result and the corners found; when there is no such matrix, the identity is used. Nothing else in memory changes.", "quantifier": "all pictures up to 2^29-1 pixels, all sizes up to 32768 x 32768 and 2^29-1 pixels", "why_tests_cant": "all pictures and sizes", "anchors": ["src/cli.c:apply_operation", "src/perspectivetransform.c:fcv_apply_matrix_3x3", "src/perspectivetransform.c:fcv_calculate_perspective_transform"]}
{"id": "C95", "title": "extract_document gives the document the size of its longer sides", "statement": "extract_document returns the document as extract_document_to does, in the size max(top side, bottom side) x max(left side, right side), rounded, but at least 100 each, in spite of rounding in pow, sqrt and the subtraction.", "quantifier": "all pictures up to 2^29-1 pixels, all pow within a few units in the last place", "why_tests_cant": "the corners range over all positions", "anchors": ["src/cli.c:apply_operation"]}
{"id": "C96", "title": "Turning and changing tones commute", "statement": "Flipping, rotating, transposing or transversing a picture and then making it gray, stretched gray, or black and white (single or double threshold) gives the same bytes as changing the tones first and turning the result.", "quantifier": "all pictures up to 2^30 pixels, all seven turnings, all four tone operations", "why_tests_cant": "the threshold and the percentiles depend on every pixel; only their independence of position makes the order irrelevant", "anchors": ["src/flip.c", "src/rotate.c", "src/conversion.c:fcv_grayscale", "src/conversion.c:fcv_grayscale_stretch", "src/conversion.c:fcv_otsu_threshold_rgba"]}
{"id": "C97", "title": "Edges turn with the picture", "statement": "The edge picture of a flipped, rotated, transposed or transversed picture is the edge picture of the original, turned the same way, for every pixel including the border.", "quantifier": "all pictures, all seven turnings", "why_tests_cant": "quantifies over all pictures; the clamped border and the final normalisation must be symmetric too", "anchors": ["src/sobel_edge_detection.c:fcv_sobel_edge_detection", "src/flip.c", "src/rotate.c"]}
{"id": "C98", "title": "Turning does not change the histogram", "statement": "The histogram picture of a turned picture equals that of the original byte for byte.", "quantifier": "all pictures, all seven turnings", "why_tests_cant": "quantifies over all pictures", "anchors": ["src/histogram.c:fcv_generate_histogram", "src/flip.c", "src/rotate.c"]}
{"id": "C99", "title": "A border can be taken off again", "statement": "Cropping the inner part of a bordered picture gives the original back byte for byte; trim does so too unless an outer row or column of the picture is uniform (columns: of the border's colour).", "quantifier": "all pictures, colours and border widths whose bordered size is below 2^32 bytes", "why_tests_cant": "composes two or three functions on all inputs", "anchors": ["src/draw.c:fcv_add_border", "src/crop.c:fcv_crop", "src/trim.c:fcv_trim"]}
{"id": "C100", "title": "Dilation and erosion belong together", "statement": "A larger radius dilates and erodes at least as much; eroding the white is dilating the black away from the edge; a picture is within the erosion of another if and only if its dilation is within that other (away from the edge); two dilations in a row reach no farther than one whose radius is one more than the sum of the radii.", "quantifier": "all pictures and radii up to 32767", "why_tests_cant": "relations between the results of several calls for all radii", "anchors": ["src/binary_closing_disk.c"]}
{"id": "C101", "title": "Thresholding leaves a black-and-white picture as it is", "statement": "A picture whose pixels are all black or white comes out of automatic thresholding with the same gray levels, in both modes.", "quantifier": "all pictures", "why_tests_cant": "the threshold is found in single precision; sums of shares round", "anchors": ["src/conversion.c:fcv_otsu_threshold_rgba"]}
{"id": "C102", "title": "Drawings of one colour may be repeated and reordered", "statement": "Circles and disks of one colour give the same picture in any order; drawing one twice is drawing it once; a disk covers the circle of the same centre and radius.", "quantifier": "all pictures, centres, radii and colours", "why_tests_cant": "relations between sequences of calls", "anchors": ["src/draw.c:fcv_draw_circle", "src/draw.c:fcv_draw_disk"]}
{"id": "C103", "title": "the pipeline's table of operations holds every operation of the command line and leaks nothing", "statement": "With memory available, the operations the program runs are exactly those written on the command line, all of them and in their order, however many there are and however often the table holding them grows; no access lies outside the table, and when the program ends (also when it rejects the arguments) every block used for the table and for parsing has been released exactly once.", "quantifier": "every list of arguments of at most 2^30 bytes, and every sequence of operations", "why_tests_cant": "The growth of the table happens at counts no test uses, and leaks or stale entries are invisible in the output.", "anchors": ["src/cli.c: create_pipeline, add_operation, free_pipeline, parse_pipeline, main"]}
{"id": "C104", "title": "running out of memory while reading the operations is reported", "statement": "If an allocation fails while the command line is read (for the pipeline, its table, the table's growth, the joined arguments or the copies made while parsing), the program stops with an error and releases what it holds.", "quantifier": "every list of arguments and every pattern of failing allocations", "why_tests_cant": "Tests do not make malloc fail.", "anchors": ["src/cli.c: create_pipeline, add_operation, parse_pipeline"]}
{"id": "C105", "title": "the Haskell functions return vectors with exactly the picture's bytes", "statement": "For grayscale, grayscaleStretch, rgbaToGrayscale, singleToMultichannel, gaussianBlur, otsuThreshold, bwSmart, sobelEdgeDetection with one channel, the flips and rotations, transpose, transverse, resize, crop, trim, trimThreshold, addBorder, generateHistogram and applyMatrix3x3, the returned vector has exactly as many elements as the picture has bytes, they are the bytes the C function computed, all of them can be read, and releasing the vector releases everything the call allocated. Impossible sizes and exhausted memory give an exception and leave memory as it was.", "quantifier": "every picture below 4 GiB (2 GiB for the functions that use Int32), every input vector that is long enough, every pattern of failing allocations", "why_tests_cant": "The length of the vector is computed separately from the C function's result and is trusted; an off-by-some length is only visible as a rare crash.", "anchors": ["bindings/flatcv-hs/src/FlatCV.hs: withImageData, makeVector, grayscale, flipX, resize, crop, trim, addBorder, generateHistogram, applyMatrix3x3"]}
{"id": "C106", "title": "no Haskell function returns a vector that is longer than its memory", "statement": "Every vector returned by sobelEdgeDetection, foerstnerCorner, binaryDilationDisk, binaryErosionDisk, binaryClosingDisk, binaryOpeningDisk and convertToBinary can be read to its end.", "quantifier": "every picture, radius, sigma, number of channels and colour", "why_tests_cant": "Reading past a malloc'd block usually yields garbage rather than a crash.", "anchors": ["bindings/flatcv-hs/src/FlatCV.hs: sobelEdgeDetection, foerstnerCorner, binaryDilationDisk, binaryErosionDisk, binaryClosingDisk, binaryOpeningDisk, convertToBinary"]}
{"id": "C107", "title": "a Haskell vector shorter than the size passed with it is refused", "statement": "If the vector has fewer elements than the picture of the given width and height needs, the function throws an exception instead of reading or writing past the vector's end.", "quantifier": "every vector and every size", "why_tests_cant": "Out-of-bounds reads often go unnoticed.", "anchors": ["bindings/flatcv-hs/src/FlatCV.hs: withImageData, applyGlobalThreshold, drawDisk"]}
{"id": "C108", "title": "calculatePerspectiveTransform of the Haskell binding is safe for all corners", "statement": "For all source and destination corners calculatePerspectiveTransform returns a matrix (or throws), without undefined behaviour, and leaves memory as it was.", "quantifier": "every pair of quadrilaterals, including degenerate ones and ones with coordinates that are not finite", "why_tests_cant": "The C function returns a pointer to a static matrix only in its failure cases.", "anchors": ["bindings/flatcv-hs/src/FlatCV.hs: calculatePerspectiveTransform", "src/perspectivetransform.c: fcv_calculate_perspective_transform"]}
{"id": "C109", "title": "watershedSegmentation of the Haskell binding returns the coloured picture and leaks nothing", "statement": "watershedSegmentation returns a vector of four bytes per pixel in which a marker whose pixel no other marker shares has its region's colour; whether it succeeds or throws, the memory it used for the markers is released.", "quantifier": "every picture, every list of markers, every pattern of failing allocations", "why_tests_cant": "Leaks are invisible in the results.", "anchors": ["bindings/flatcv-hs/src/FlatCV.hs: watershedSegmentation"]}
{"id": "C110", "title": "the Haskell functions that draw or threshold leave their argument unchanged", "statement": "applyGlobalThreshold, drawCircle and drawDisk return a changed copy: the first n bytes thresholded and the others kept, respectively exactly the circle's or disk's pixels painted in the colour; the vector passed in is not modified, and releasing the result releases all memory of the call.", "quantifier": "every vector (for drawing: every picture, colour, centre and radius for which the C function's arithmetic is defined)", "why_tests_cant": "Purity must hold for all inputs; a test sees only the vectors it compares.", "anchors": ["bindings/flatcv-hs/src/FlatCV.hs: applyGlobalThreshold, drawCircle, drawDisk"]}
{"id": "C111", "title": "the Haskell functions handle pictures of 4 GiB and more", "statement": "flipX, flipY, transpose, transverse, rotate90CW, rotate180 and rotate270CW return a vector with all bytes of the picture, for every size the C functions accept.", "quantifier": "every picture of 4 GiB or more", "why_tests_cant": "Tests cannot afford pictures of this size.", "anchors": ["bindings/flatcv-hs/src/FlatCV.hs: withImageData, flipX, rotate90CW"]}
{"id": "C112", "title": "detectCorners of the Haskell binding returns corners on the picture, throws on failure and leaks nothing", "statement": "detectCorners returns the four corners the C function finds, in its order; they are finite, strictly inside the picture and at least w/22 or h/22 apart; the C structure is released and memory is as before; a picture without a document or of size 0 raises an exception.", "quantifier": "every picture up to 2^30 pixels, as long as memory is available", "why_tests_cant": "Leaks are invisible in the results, and which pictures end the program depends on their contents.", "anchors": ["bindings/flatcv-hs/src/FlatCV.hs: detectCorners", "src/corner_detection.c: fcv_detect_corners_ptr"]}
{"id": "C113", "title": "extractDocument and extractDocumentAuto of the Haskell binding return the document", "statement": "Both return a vector whose length is four times the number of pixels of the document's picture, which can be read to the end; each pixel shows the point of the source to which the corner matrix maps it (see C94 and C95). extractDocument uses the requested size, extractDocumentAuto returns the rounded length of the longer ones of opposite sides, at least 100, as the size.", "quantifier": "every picture in which corners are found, every size up to 32768x32768", "why_tests_cant": "The corners and so the size depend on the contents; a vector that is too long reads other memory.", "anchors": ["bindings/flatcv-hs/src/FlatCV.hs: extractDocument, extractDocumentAuto"]}
{"id": "C114", "title": "Haskell programs may call the binding and drop vectors in any order", "statement": "Any sequence of calls of flipX, flipY, transpose, transverse, rotate90CW, rotate180, rotate270CW, grayscale, grayscaleStretch and otsuThreshold on vectors in use, with sizes that match their length, mixed in any order with releases of vectors by the garbage collector, runs without undefined behaviour. Every vector in use keeps the contents its call gave it, no matter what is released; no other memory changes. After all vectors are dropped nothing is left allocated. Calls fail (with an exception) only for empty pictures or when memory runs out, and then have no effect.", "quantifier": "every finite history of calls and releases, all initial vectors, every pattern of failing allocations", "why_tests_cant": "The garbage collector decides when vectors are released; tests see one schedule.", "anchors": ["bindings/flatcv-hs/src/FlatCV.hs: withImageData, makeVector, finalizerFree"]}
{"id": "C115", "title": "the playground's worker returns the picture of the C function and keeps its memory", "statement": "For each of the four buttons the worker's answer makes the page show, for every pixel, what the C function computes from the picture (grayscale, blur of radius 5, Sobel edges as opaque gray, Otsu's black and white); the worker's memory is as before, so that it can answer any number of requests; when memory runs out the answer is an error message.", "quantifier": "every picture up to 2^28 pixels, every button, every pattern of failing allocations", "why_tests_cant": "A leak shows only after many requests; failing allocations cannot be arranged in a browser test.", "anchors": ["tests/cli/playground/image-worker.js: processImage, copyToWasmMemory, copyFromWasmMemory", "tests/cli/playground/script.js: displayProcessedImage"]}
{"id": "C116", "title": "the playground answers all clicks in order, whatever the schedule", "statement": "Whatever the order in which the user loads pictures and clicks, the module finishes loading (or fails to), and the worker and the page take their messages: clicks are answered one by one in the order they were made, each with the result for the picture that was there at the time of the click, or, if the module was not loaded at the time of the click, possibly with an error message. When no message is under way every click has been answered, nothing is waiting and no spinner turns; such a state is always reached when worker and page go on taking messages.", "quantifier": "every finite sequence of events, all pictures up to 2^28 pixels, as long as memory is available and operation ids differ", "why_tests_cant": "The interleaving of page and worker cannot be controlled by tests.", "anchors": ["tests/cli/playground/script.js: initImageWorker, processImageWithWorker", "tests/cli/playground/image-worker.js: onmessage, initFlatCV"]}
{"id": "C117", "title": "a button's spinner turns exactly while a request of this button is waiting", "statement": "The spinner of a button is shown if and only if at least one click on this button has not been answered.", "quantifier": "every finite sequence of events", "why_tests_cant": "Depends on the interleaving of clicks and answers.", "anchors": ["tests/cli/playground/script.js: showSpinner, hideSpinner, onmessage"]}
{"id": "C118", "title": "the playground works on the picture the user loaded last", "statement": "Once the user has loaded a picture, the buttons work on the picture they loaded last.", "quantifier": "every finite sequence of events", "why_tests_cant": "Depends on when the default picture arrives relative to the user's own.", "anchors": ["tests/cli/playground/script.js: loadDefaultImage, fileInput change handler"]}
{"id": "C119", "title": "every click on an enabled button of the playground leads to a picture", "statement": "If memory is available and the module can be loaded, each click on a button that is enabled is answered with a picture.", "quantifier": "every finite sequence of events", "why_tests_cant": "Depends on how long the module takes to load and on random ids.", "anchors": ["tests/cli/playground/script.js: enableFilterButtons, processImageWithWorker", "tests/cli/playground/image-worker.js: processImage"]}
{"id": "C120", "title": "any sequence of turnings is determined by where the corners end up", "statement": "For any two sequences of calls of flip_x, flip_y, transpose, transverse, rotate_90_cw, rotate_180 and rotate_270_cw on the same picture, each call on the result of the one before: if both move the four corners of a sheet of paper to the same places, both results have the same size and the same bytes. In particular, a sequence that brings all corners back returns the original picture.", "quantifier": "all finite sequences of the seven functions, all pictures", "why_tests_cant": "Sequences of unbounded length over all pictures cannot be enumerated.", "anchors": ["src/flip.c: fcv_flip_x, fcv_flip_y, fcv_transpose, fcv_transverse", "src/rotate.c: fcv_rotate_90_cw, fcv_rotate_180, fcv_rotate_270_cw"]}
{"id": "C121", "title": "turnings and tone changes can be mixed in any order", "statement": "For any two sequences that mix turnings with grayscale, grayscale_stretch and the two Otsu thresholds: if the tone functions are the same in the same order, and the turnings move the four corners of a sheet of paper to the same places, both results have the same size and the same bytes, no matter how turnings and tone changes are interleaved.", "quantifier": "all finite mixed sequences, all pictures up to 2^30 pixels", "why_tests_cant": "Sequences of unbounded length over all pictures cannot be enumerated.", "anchors": ["src/conversion.c: fcv_grayscale, fcv_grayscale_stretch, fcv_otsu_threshold_rgba", "src/flip.c", "src/rotate.c"]}
{"id": "C122", "title": "a command line that only turns shows the picture as a turned sheet would", "statement": "For a command line whose operations are flip_x, flip_y and rotate by multiples of 90 degrees (positive or negative), of any length: the program hands to the image writer (with status 0 if that succeeds, else 1) exactly the picture that a sheet of paper shows when it is first turned as the orientation tag of the input file asks and then as the operations say, in their order. Its size is that of the input, exchanged if the sheet lies on its side. If memory runs out in the pipeline, nothing is written and the status is 1.", "quantifier": "all pipelines of these operations, all pictures, all orientation tags, all outcomes of allocations (if the tag asks for turning: allocations that succeed)", "why_tests_cant": "Pipelines of unbounded length over all pictures and tags cannot be enumerated.", "anchors": ["src/cli.c: main, execute_pipeline, apply_operation", "src/flip.c", "src/rotate.c", "src/exif.c: fcv_get_exif_orientation"]}
{"id": "C123", "title": "turnings can be mixed with morphology and borders in any order", "statement": "For any two command-line pipelines that mix flip_x, flip_y and rotate by multiples of 90 degrees with grayscale, erode, dilate, close, open and border: if the latter operations are the same in the same order, with parameters that suit the picture, and the turnings move the four corners of a sheet of paper to the same places, both results have the same size and the same bytes, no matter how they are interleaved.", "quantifier": "all such pipelines of any length, all pictures of usual size (up to 2^30 pixels)", "why_tests_cant": "Interleavings of unbounded length over all pictures cannot be enumerated.", "anchors": ["src/cli.c: execute_pipeline, apply_operation", "src/binary_closing_disk.c", "src/draw.c: fcv_add_border", "src/flip.c", "src/rotate.c"]}
{"id": "C124", "title": "cutting out of a turned picture is turning what is cut out", "statement": "For flips, half and quarter turns, transposing and transversing: cropping the turned picture to the rectangle that the given rectangle becomes gives, byte for byte, the turned crop of the picture.", "quantifier": "all RGBA pictures, all seven turnings, all rectangles inside the picture", "why_tests_cant": "All rectangles of all pictures cannot be enumerated; an off-by-one in the place of the rectangle shows only for some.", "anchors": ["src/crop.c: fcv_crop", "src/flip.c", "src/rotate.c"]}
{"id": "C125", "title": "trimming does not depend on how the picture lies", "statement": "Trimming a turned picture gives the turned trimmed picture.", "quantifier": "all RGBA pictures, all seven turnings", "why_tests_cant": "Border widths and colours vary freely; the pictures for which this fails are rare and specific.", "anchors": ["src/trim.c: fcv_trim", "src/flip.c", "src/rotate.c"]}
{"id": "C126", "title": "a tile is processed as the whole picture is", "statement": "If a rectangle of the picture is cut out and processed alone, the result equals that part of the processed picture byte for byte: everywhere for grayscale, the conversions between one and four channels and conversion to binary; for dilation, erosion and blurring at all pixels at least the radius (rounded down) away from the sides of the rectangle, for closing and opening at least twice the radius away. Sides of the rectangle that are sides of the picture need no distance.", "quantifier": "all pictures, all rectangles inside them, all accepted radii (blur: from 1e-12), all such pixels", "why_tests_cant": "All rectangles, radii and pixels cannot be enumerated; errors show only near the sides of tiles.", "anchors": ["src/crop.c: fcv_crop", "src/binary_closing_disk.c", "src/conversion.c: fcv_grayscale, fcv_apply_gaussian_blur", "src/rgba_to_grayscale.c", "src/single_to_multichannel.c", "src/convert_to_binary.c"]}
{"id": "C127", "title": "larger radii change more, and two steps reach little farther than one", "statement": "Dilation with a larger radius makes at least the same pixels white, erosion with a larger radius leaves at most the same pixels white. Dilating by r and then by s whitens no pixel that dilating once by r + s + 1 does not, and eroding twice keeps every pixel that eroding once by r + s + 1 keeps.", "quantifier": "all one-channel pictures, all accepted radii", "why_tests_cant": "All radii and pictures cannot be enumerated; a rounding error in the disk shows only at a few radii.", "anchors": ["src/binary_closing_disk.c: fcv_binary_dilation_disk, fcv_binary_erosion_disk"]}
{"id": "C128", "title": "drawing on a cut-out agrees with cutting out of the drawing", "statement": "Drawing a circle or a disk on a picture and cutting a rectangle out of the result gives the same bytes as cutting the rectangle out first and drawing the circle or disk there, with its centre moved by the position of the rectangle, even where the shape sticks out of the rectangle.", "quantifier": "all pictures with 1, 3 or 4 channels, all rectangles in them, all accepted radii and centres (inside or outside), all colour texts", "why_tests_cant": "The shape may be cut off at any side in any way; clipping mistakes show only for some positions and radii.", "anchors": ["src/draw.c: fcv_draw_circle, fcv_draw_disk", "src/crop.c: fcv_crop"]}
{"id": "C129", "title": "drawing circles and disks commutes with turning", "statement": "Turning a picture (mirroring, half turn, transposing, quarter turns) on which a circle or a disk was drawn gives the same bytes as turning the picture first and drawing the circle or disk about the place the centre was turned to.", "quantifier": "all four-channel pictures, all seven turnings, all accepted radii and centres (inside or outside), all colour texts", "why_tests_cant": "The shapes come out of an incremental algorithm: whether they are symmetric about the diagonals has to be known for every radius, and it fails for a single one.", "anchors": ["src/draw.c: fcv_draw_circle, fcv_draw_disk", "src/flip.c: fcv_flip_x, fcv_flip_y, fcv_transpose, fcv_transverse", "src/rotate.c: fcv_rotate_180, fcv_rotate_90_cw, fcv_rotate_270_cw"]}
{"id": "C130", "title": "two borders of one colour are one border", "statement": "Adding a border of m pixels and then one of n pixels of the same colour gives the same size and the same bytes as adding one border of m + n pixels.", "quantifier": "all pictures with 1, 3 or 4 channels, all m, n > 0 and all colour texts, if the result has at most 2^32 bytes", "why_tests_cant": "All pictures, widths and colours cannot be enumerated; an off-by-one in the placement shows only in some rows or columns.", "anchors": ["src/draw.c: fcv_add_border"]}
{"id": "C131", "title": "a disk hides smaller disks and circles about the same centre", "statement": "Drawing a disk over a disk or a circle of the same or a smaller radius about the same centre, of whatever colour, leaves no trace of the latter: the picture is the one with the larger disk alone.", "quantifier": "all pictures with 1, 3 or 4 channels, all accepted centres, all pairs of radii, all colour texts", "why_tests_cant": "The outline comes out of an incremental algorithm: that outlines of different radii never cross has to be known for every pair of radii, and it fails for a single one.", "anchors": ["src/draw.c: fcv_draw_disk, fcv_draw_circle"]}
