{"id": "C01", "title": "Multi-byte integers are read with the file's byte order", "statement": "Reading a 16- or 32-bit integer at an offset of a buffer yields the positional (base 256) value of the bytes at that offset in the requested byte order; signed 32-bit reads are the two's complement of the unsigned one; a read that does not fit in the buffer never returns a value.", "quantifier": "every byte buffer, every offset, both byte orders", "why_tests_cant": "the read offset and all byte values come from the file; tests only see a few values and rarely the boundary offsets", "anchors": ["src/decoders/basics.rs: BEu32, LEu32, BEu16, LEu16, Endian::ru32, Endian::ri32, Endian::ru16"]}
{"id": "C02", "title": "Bit readers return the bits of the file in order, without loss or repetition", "statement": "For each bit reader (least-significant-first, most-significant-first, most-significant-first over 32-bit little-endian words), any sequence of read requests of 0 to 32 bits returns exactly the consecutive fields of the buffer's bit string; peeking never moves the read position.", "quantifier": "every byte buffer and every sequence of peek/consume/read requests whose total fits in the whole words of the buffer", "why_tests_cant": "the state space is the product of cache contents, fill level and request history", "anchors": ["src/decoders/pumps.rs: BitPumpLSB, BitPumpMSB, BitPumpMSB32, BitPump::get_bits"]}
{"id": "C03", "title": "The JPEG bit reader removes byte stuffing and pads with zeros", "statement": "Reading from JPEG entropy-coded data returns the bits of the data with every FF00 replaced by FF, stopping at the first marker or the end of the data, and then returns zeros for ever; the result does not depend on how requests are split.", "quantifier": "every entropy-coded byte string of at least four bytes not ending in a bare FF, every sequence of read requests of at most 32 bits", "why_tests_cant": "the fast and slow refill paths alternate depending on where FF bytes fall relative to the cache", "anchors": ["src/decoders/pumps.rs: BitPumpJPEG"]}
{"id": "C04", "title": "Signed bit fields are two's complement", "statement": "A sign-extended read of n bits returns the two's complement interpretation of the next n bits, for every n from 0 to 32.", "quantifier": "every stream content, every field width 0..32", "why_tests_cant": "2^32 values per width and 33 widths", "anchors": ["src/decoders/pumps.rs: BitPump::get_ibits_sextended, get_ibits, peek_ibits"]}
{"id": "C05", "title": "Packed raw formats decode to the exact bit fields stored by the camera", "statement": "For every packed layout (8-bit table, 10-bit, 12-bit big and little endian, 16- and 32-bit word swapped, with control bytes, interlaced, and the unpacked 12/14/16-bit forms) pixel (row,col) of the result is the documented bit field of the file, whenever the file holds enough data and the width is a multiple of the layout's group size.", "quantifier": "every buffer, width, height, row and column", "why_tests_cant": "each layout has its own offset arithmetic and unit tests would need every width/height/offset combination", "anchors": ["src/decoders/packed.rs: all decode_* functions"]}
{"id": "C06", "title": "Packed decoding is lossless: packing then decoding returns the image", "statement": "Encoding any image with the documented packing and decoding it again returns the image unchanged.", "quantifier": "every image of every size with samples in range", "why_tests_cant": "round trip must hold for all images", "anchors": ["src/decoders/packed.rs: decode_12be, decode_12le, decode_10le_lsb16, decode_12be_msb32, decode_16le, decode_16be, ..."]}
{"id": "C07", "title": "A decoded buffer has exactly the requested number of samples, each a 16-bit value", "statement": "Every decoding routine that succeeds returns exactly width x height samples (times components) and every sample is between 0 and 65535.", "quantifier": "every input buffer and every size", "why_tests_cant": "requires all control paths, including short and odd-sized inputs", "anchors": ["src/decoders/packed.rs", "src/decoders/basics.rs: decode_threaded, decode_threaded_multiline"]}
{"id": "C08", "title": "Parallel decoding gives the sequential result for every thread schedule", "statement": "Row-parallel decoding produces the same buffer as decoding the rows one after the other, whatever the interleaving of the worker threads, and if some row fails the whole decode fails under every schedule.", "quantifier": "every row decoder, image size and interleaving of worker steps", "why_tests_cant": "a test run samples one interleaving out of exponentially many", "anchors": ["src/decoders/basics.rs: decode_threaded, decode_threaded_multiline", "src/imageops/mod.rs: mutate_lines, process_into_new"]}
{"id": "C09", "title": "Colour filter pattern lookup is the infinite periodic extension of the pattern", "statement": "For a filter built from a pattern name, the colour at any position equals the pattern letter at (row mod height, col mod width).", "quantifier": "every valid pattern name, every row and column below 2^63 (no Rust object can be larger)", "why_tests_cant": "positions are unbounded; pattern names are all strings over the colour alphabet", "anchors": ["src/decoders/cfa.rs: CFA::new, CFA::color_at"]}
{"id": "C10", "title": "Shifting a colour filter moves the pattern, and shifts compose", "statement": "After shifting by (x,y) the colour at (row,col) is the former colour at (row+y,col+x); consecutive shifts add up; cloning preserves every lookup; the size and validity are unchanged.", "quantifier": "every filter, every sequence of shifts and every position whose sum stays below 2^63", "why_tests_cant": "unbounded shifts and positions", "anchors": ["src/decoders/cfa.rs: CFA::shift, CFA::clone, CFA::is_valid", "src/decoders/image.rs: RawImage::cropped_cfa"]}
{"id": "C11", "title": "Bad colour filter names are refused, good ones accepted", "statement": "A pattern name is accepted exactly when it is empty or has 4, 16, 36 or 144 letters all among R,G,B,E,M,Y; nothing else yields a filter, and every lookup in an accepted filter returns a plane index below 4.", "quantifier": "every string", "why_tests_cant": "the space of names is infinite", "anchors": ["src/decoders/cfa.rs: CFA::new"]}
{"id": "C12", "title": "Orientation handling implements the EXIF transformations", "statement": "For each of the eight orientations the rotated output has the prescribed dimensions and each output pixel is the prescribed source pixel; Normal and Unknown leave the image unchanged.", "quantifier": "every non-empty image size, pixel content, number of components and orientation value 0..65535", "why_tests_cant": "all sizes and all pixels", "anchors": ["src/imageops/transform.rs", "src/decoders/mod.rs: Orientation::from_u16, Orientation::to_flips"]}
{"id": "C13", "title": "Orientation transforms are invertible and form the symmetry group of the rectangle", "statement": "Applying an orientation followed by its inverse returns the original image; flips and transposes are involutions; rotating by 90 degrees twice is rotating by 180.", "quantifier": "every image", "why_tests_cant": "universally quantified over images", "anchors": ["src/imageops/transform.rs: flip_horizontal, flip_vertical, transpose, rotate_buffer"]}
{"id": "C14", "title": "Clamping to a bit depth saturates", "statement": "Clamping a signed value to n bits gives 0 for negative values, the value itself when it fits and 2^n-1 when it is too large.", "quantifier": "every 32-bit signed value, every bit depth used", "why_tests_cant": "2^32 values for each depth", "anchors": ["src/decoders/basics.rs: clampbits"]}
{"id": "C15", "title": "Tone-curve dithering stays within the neighbouring curve values and never fails", "statement": "For every monotone curve, the dithered value of an in-range sample lies between the neighbouring entries of the curve and the random state update never overflows.", "quantifier": "every curve, sample and random state", "why_tests_cant": "2^16 entries times 2^32 random states", "anchors": ["src/decoders/basics.rs: LookupTable::new, LookupTable::dither"]}
{"id": "C16", "title": "Canonical Huffman codes decode to the symbol they encode", "statement": "For every well-formed code-length table, a bit stream that starts with the canonical code word of a symbol decodes to exactly that symbol and consumes exactly its code length.", "quantifier": "every valid code table, symbol and continuation of the stream", "why_tests_cant": "tables come from the file; there are astronomically many", "anchors": ["src/decoders/ljpeg/huffman.rs: HuffTable::initialize, huff_len"]}
{"id": "C17", "title": "The fast Huffman lookup table agrees with the bit-by-bit decoder", "statement": "Decoding a difference through the precomputed 13-bit table returns the same value and consumes the same number of bits as decoding it step by step.", "quantifier": "every code table and every stream content", "why_tests_cant": "2^13 entries for each of the possible tables", "anchors": ["src/decoders/ljpeg/huffman.rs: huff_decode, huff_decode_slow, huff_diff"]}
{"id": "C18", "title": "Difference values follow the JPEG sign-extension rule", "statement": "For a difference category n the n following bits v mean v if the top bit is set and v-(2^n-1) otherwise, so each difference of magnitude below 2^n has exactly one encoding.", "quantifier": "every category 0..15 and every bit pattern", "why_tests_cant": "exhaustive over categories and values", "anchors": ["src/decoders/ljpeg/huffman.rs: huff_diff"]}
{"id": "C19", "title": "Lossless JPEG decoding inverts prediction", "statement": "Given the differences an encoder computes for an image (previous-sample prediction, first column from the row above, base 2^(precision-point_transform-1)), decoding reconstructs the image exactly, for 2, 3 and 4 interleaved components, full and partial output widths.", "quantifier": "every image, size, precision and number of components", "why_tests_cant": "inductive over rows and columns, wraps modulo 2^16", "anchors": ["src/decoders/ljpeg/decompressors.rs: decode_ljpeg_2components, decode_ljpeg_3components, decode_ljpeg_4components"]}
{"id": "C20", "title": "Lossless JPEG: encoding then decoding returns the image, down to the bits", "statement": "Entropy coding the differences of any image with any complete enough code table, adding byte stuffing, and decoding the resulting bytes returns the image.", "quantifier": "every image, code table and size", "why_tests_cant": "end-to-end round trip over all images", "anchors": ["src/decoders/ljpeg/", "src/decoders/pumps.rs: BitPumpJPEG"]}
{"id": "C21", "title": "TIFF lookups find a tag exactly when it is present, in a fixed order", "statement": "Looking up a tag in a directory tree returns an entry with that tag if and only if some directory of the tree has it, preferring the directory itself and then sub-directories depth first in file order; the existence test agrees with the lookup.", "quantifier": "every directory tree and tag", "why_tests_cant": "trees are arbitrary and come from the file", "anchors": ["src/decoders/tiff.rs: TiffIFD::find_entry, has_entry, find_first_ifd"]}
{"id": "C22", "title": "Listing directories that contain a tag lists each one once", "statement": "The list of directories containing a tag has every such directory exactly once, the outermost first.", "quantifier": "every directory tree and tag", "why_tests_cant": "trees are arbitrary", "anchors": ["src/decoders/tiff.rs: TiffIFD::find_ifds_with_tag, find_ifds_with_tag_recursively"]}
{"id": "C23", "title": "Parsing any file terminates with bounded nesting", "statement": "Directory parsing always terminates, reads at most 100 chained top-level directories, at most 4000 entries per directory and never nests deeper than the documented limit, even when the file contains directory loops.", "quantifier": "every byte string", "why_tests_cant": "malicious files contain cyclic offsets", "anchors": ["src/decoders/tiff.rs: TiffIFD::new_root, TiffIFD::new", "src/decoders/ciff.rs: CiffIFD::new"]}
{"id": "C24", "title": "TIFF values are the same whatever the byte order of the file", "statement": "Writing a list of integer entries as a big-endian or little-endian directory and parsing it gives back the same tags, counts and values.", "quantifier": "every list of entries with known tags and every value", "why_tests_cant": "all values and both byte orders", "anchors": ["src/decoders/tiff.rs: TiffEntry::new, get_u32, TiffIFD::new"]}
{"id": "C25", "title": "Entry values can be read at every index below their count", "statement": "An entry that was parsed successfully owns exactly count x element-size bytes of the file, so reading any index below the count of a numeric entry succeeds.", "quantifier": "every file, entry and index", "why_tests_cant": "counts and offsets come from the file", "anchors": ["src/decoders/tiff.rs: TiffEntry::new, get_u32, get_f32"]}
{"id": "C26", "title": "Opening a file never crashes the program", "statement": "Decoding reports an error value for every file content it cannot decode; no panic escapes to the caller.", "quantifier": "every byte string and every build mode", "why_tests_cant": "all inputs", "anchors": ["src/lib.rs: decode", "src/decoders/mod.rs: RawLoader::decode_safe, RawLoader::decode, Buffer::new"]}
{"id": "C27", "title": "Opening a file always terminates", "statement": "The header scan of every container format terminates for every file content.", "quantifier": "every byte string, both build modes", "why_tests_cant": "malicious lengths", "anchors": ["src/decoders/mrw.rs: MrwDecoder::new", "src/decoders/arw.rs", "src/decoders/tiff.rs"]}
{"id": "C28", "title": "Format recognition looks only at the documented signatures and in a fixed order", "statement": "The container format of a file is decided by its magic numbers in a fixed priority order, whatever the rest of the file contains; recognition never fails on short or empty files.", "quantifier": "every byte string including the empty one", "why_tests_cant": "signatures overlap only for adversarial inputs; short files", "anchors": ["src/decoders/mod.rs: RawLoader::get_decoder, Buffer::new", "src/decoders/mrw.rs: is_mrw", "src/decoders/ciff.rs: is_ciff", "src/decoders/ari.rs: is_ari", "src/decoders/x3f.rs: is_x3f"]}
{"id": "C29", "title": "Camera lookups respect make, model and mode, with aliases and mode overrides", "statement": "A camera found by (make, model, mode) was declared with that make, that model or an alias of it, and that mode; attributes not overridden by the mode or alias are those of the base declaration.", "quantifier": "every camera database and lookup key", "why_tests_cant": "the database is an open set of TOML files", "anchors": ["src/decoders/mod.rs: RawLoader::new, Camera::update_from_toml, check_supported_with_everything"]}
{"id": "C30", "title": "The shipped camera database is well formed", "statement": "Loading the camera database shipped in the repository cannot fail: every declaration has attribute values of the right type, crops and matrices within bounds and an acceptable colour pattern; no two declarations claim the same (make, model, mode) key with different data.", "quantifier": "every one of the shipped declarations, aliases and modes", "why_tests_cant": "the loader is evaluated lazily at the first decode outside the panic guard; a test would decode every camera", "anchors": ["data/cameras", "src/decoders/mod.rs: RawLoader::new, Camera::update_from_toml", "src/decoders/cfa.rs: CFA::new"]}
{"id": "C31", "title": "Sony metadata decryption is its own inverse", "statement": "Decrypting twice with the same key returns the original words; the key stream does not depend on the data; the output has exactly the requested whole number of words.", "quantifier": "every buffer, offset, length and key", "why_tests_cant": "2^32 keys", "anchors": ["src/decoders/arw.rs: ArwDecoder::sony_decrypt"]}
{"id": "C32", "title": "Fuji sensor rotation places every pixel once", "statement": "The 45 degree rotation used for Super CCD sensors maps each sensor pixel to a distinct in-range output position, so no pixel is lost or overwritten.", "quantifier": "every sensor size, both orientations", "why_tests_cant": "all sizes; off-by-one errors at the edges", "anchors": ["src/decoders/raf.rs: RafDecoder::rotate_image"]}
{"id": "C33", "title": "Interlaced Leaf rows are put back by a permutation", "statement": "De-interlacing a Leaf file moves each decoded row to exactly one output row and fills every output row.", "quantifier": "every image height", "why_tests_cant": "all heights, parity cases", "anchors": ["src/decoders/mos.rs: MosDecoder::decode_compressed"]}
{"id": "C34", "title": "Sony ARW1 visits every pixel exactly once", "statement": "Decoding a first-generation Sony file assigns every pixel, column by column from the right, even rows before odd rows.", "quantifier": "every even height and every width", "why_tests_cant": "loop with a mid-flight reset of the row counter", "anchors": ["src/decoders/arw.rs: ArwDecoder::decode_arw1"]}
{"id": "C35", "title": "Canon stripes are reassembled by a permutation of the pixels", "statement": "When a Canon raw file is stored in vertical stripes, reassembly puts every decoded sample at exactly one place of the output, in stripe order.", "quantifier": "every stripe layout whose widths add up to the image width", "why_tests_cant": "layouts come from the file", "anchors": ["src/decoders/cr2.rs: Cr2Decoder::image"]}
{"id": "C36", "title": "Cropping selects the documented rectangle", "statement": "Converting to floating point keeps exactly the pixels inside the crop (top, right, bottom, left), each with its own value, for monochrome-sensor data and for 3-component data.", "quantifier": "every image and crop", "why_tests_cant": "all sizes and crops", "anchors": ["src/imageops/gofloat.rs: convert"]}
{"id": "C37", "title": "Demosaicing keeps the measured samples and interpolates within range", "statement": "After demosaicing, the plane of the sensor colour at each pixel still holds the measured value, and every interpolated value lies between the smallest and largest neighbouring sample of that colour.", "quantifier": "every image, colour filter and pixel", "why_tests_cant": "all images", "anchors": ["src/imageops/demosaic.rs: full"]}
{"id": "C38", "title": "Downscaling fits the requested box and never enlarges", "statement": "The output of a bounded conversion is at most maxwidth x maxheight, touches one of the two bounds when the image is reduced, and is never larger than the original.", "quantifier": "every image size and every bound (up to 2^23), in IEEE single precision", "why_tests_cant": "floating-point division of all pairs of sizes", "anchors": ["src/imageops/demosaic.rs: demosaic_and_scale, full, scale_down, scaled"]}
{"id": "C39", "title": "Downscaling averages over the area of each output pixel", "statement": "Every output pixel of a downscaled image depends on at least one input pixel, so an everywhere-bright image has no black border.", "quantifier": "every image size and bound", "why_tests_cant": "depends on rounding of the ratios", "anchors": ["src/imageops/demosaic.rs: scaled, scale_down, calc_skips"]}
{"id": "C40", "title": "8-bit output is always in range and table lookups never fail", "statement": "Gamma and 8-bit conversion accept every floating-point value including NaN and infinities: table indexes stay inside the tables and bytes are in 0..255.", "quantifier": "every single-precision value", "why_tests_cant": "special values and 2^32 floats", "anchors": ["src/imageops/gamma.rs", "src/imageops/colorspaces.rs", "src/decoders/image.rs: RawImage::to_srgb"]}
{"id": "C41", "title": "Level correction never produces NaN or values above one", "statement": "After black/white level correction each sample is a number not above 1.0.", "quantifier": "every sample, black level, white level and coefficient", "why_tests_cant": "special values", "anchors": ["src/imageops/level.rs: level_and_balance"]}
{"id": "C42", "title": "Camera colour matrices are inverted correctly", "statement": "The computed camera-to-XYZ and camera-to-RGB transforms are left inverses of the corresponding forward transforms whenever these have full rank, and the camera-to-RGB transform maps equal camera values to neutral grey.", "quantifier": "every colour matrix (over exact real arithmetic)", "why_tests_cant": "matrices are continuous parameters", "anchors": ["src/decoders/image.rs: cam_to_xyz, pseudoinverse, neutralwb", "src/imageops/colorspaces.rs"]}
{"id": "C43", "title": "Lab conversion is inverted exactly by the way back", "statement": "Converting XYZ to Lab and back is the identity (over exact real arithmetic).", "quantifier": "every colour", "why_tests_cant": "continuous domain", "anchors": ["src/imageops/colorspaces.rs: xyz_to_lab, lab_to_xyz"]}
{"id": "C44", "title": "The base curve passes through its control points and is found by a correct search", "statement": "The spline returns the control value at each control point and uses the interval that contains the argument elsewhere.", "quantifier": "every increasing list of control points and every argument", "why_tests_cant": "all control point lists", "anchors": ["src/imageops/curves.rs: SplineFunc::new, interpolate"]}
{"id": "C45", "title": "A decoded image has as many samples as its size and components say", "statement": "For every file that decodes successfully, data has exactly width*height*cpp entries, all 16-bit, as the documentation of the field promises.", "quantifier": "every file content, through every modelled format decoder", "why_tests_cant": "all files and all formats", "anchors": ["src/decoders/image.rs: RawImage", "src/decoders/*.rs: image"]}
{"id": "C46", "title": "Only known cameras decode", "statement": "A file that is not a DNG decodes only if the camera database has an entry for its make, model and mode, and then the reported clean make/model, levels and colour matrix come from that entry.", "quantifier": "every file and every database", "why_tests_cant": "all files", "anchors": ["src/decoders/mod.rs: RawLoader::check_supported, check_supported_with_mode, ok_image"]}
{"id": "C47", "title": "Predictive raw formats reconstruct the encoded image", "statement": "For the predictive compressed formats (Pentax, Nikon, Samsung, Sony ARW1, Canon CRW, Phase One, Olympus, Panasonic) decoding the differences produced for an image returns the image.", "quantifier": "every image", "why_tests_cant": "inductive reconstruction over the whole image", "anchors": ["src/decoders/pef.rs", "src/decoders/nef.rs", "src/decoders/srw.rs", "src/decoders/arw.rs", "src/decoders/crw.rs", "src/decoders/iiq.rs", "src/decoders/orf.rs", "src/decoders/rw2.rs"]}
{"id": "C48", "title": "Zero padding makes every bit of the file readable", "statement": "A file loaded in memory is followed by 16 zero bytes, so every bit of the file can be read by the word-at-a-time bit readers without running off the end.", "quantifier": "every file content and offset", "why_tests_cant": "boundary behaviour for every length modulo 4", "anchors": ["src/decoders/mod.rs: Buffer::new", "src/decoders/pumps.rs"]}
{"id": "C49", "title": "Missing image data is not silently replaced", "statement": "Decoding a packed image from a buffer that holds fewer samples than the image fails instead of returning made-up samples.", "quantifier": "every buffer shorter than the image", "why_tests_cant": "The behaviour depends on how many bytes are missing relative to row and group boundaries; every truncation length of every size would have to be tried.", "anchors": ["src/decoders/packed.rs: decode_12be, decode_12be_msb16, decode_12be_msb32", "src/decoders/basics.rs: decode_threaded"]}
{"id": "C50", "title": "Black levels are the averages of the masked sensor areas", "statement": "For a camera with masked rows or columns, the black level an image reports for a filter colour is the mean, rounded down, of the samples of the masked pixels under that colour; without masked areas it is the level of the camera database.", "quantifier": "every picture size, filter pattern, masked area inside the picture and sample values", "why_tests_cant": "The sums are kept in single precision, so whether the mean is exact depends on the size of the area and the values of every sample.", "anchors": ["src/decoders/image.rs: RawImage::new", "src/decoders/camera.rs: blackareah, blackareav"]}
{"id": "C51", "title": "Numbers and filter patterns of a file are read as they were written", "statement": "A fraction of a TIFF directory is read as its quotient to within one part in four million (and correctly rounded if both parts have at most 24 bits), an integer as the nearest single precision number, IEEE numbers exactly, and the filter pattern tag gives the colour the file says for every pixel.", "quantifier": "every file, byte order, fraction, integer, IEEE bit pattern, pattern and pixel position", "why_tests_cant": "Rounding depends on the values of numerator and denominator; there are 2^64 fractions and unboundedly many positions.", "anchors": ["src/decoders/tiff.rs: get_f32", "src/decoders/basics.rs: LEf32", "src/decoders/cfa.rs: new_from_tag"]}
{"id": "C52", "title": "Small Canon pictures are converted to the colours the camera meant", "statement": "A Canon picture stored as brightness and colour differences comes out as red, green and blue by the documented formula, with the file's white balance taken back and the results clamped to 16 bits.", "quantifier": "every picture and white balance", "why_tests_cant": "Whether 32 bit arithmetic overflows depends on the product of the white balance and the samples.", "anchors": ["src/decoders/cr2.rs: convert_to_rgb, get_wb"]}
{"id": "C53", "title": "Whole raw files decode to the picture that was stored", "statement": "A file written the way the cameras of Mamiya, Pentax, Olympus, Nikon and Panasonic do, as a TIFF directory followed by packed or compressed samples, decodes to exactly the stored picture, with the size, orientation, white balance and black levels the fields of the directory tell and everything else from the entry of the camera database.", "quantifier": "every set and order of fields, byte order, picture, size, position of the samples, camera database and build mode", "why_tests_cant": "A test shows one camera's file; the claim is about every picture and every arrangement of the fields, including the way dispatch, directory parsing, camera lookup and decompression work together.", "anchors": ["src/decoders/mod.rs: RawLoader::decode, get_decoder, check_supported", "src/decoders/mef.rs", "src/decoders/pef.rs", "src/decoders/orf.rs", "src/decoders/nef.rs", "src/decoders/rw2.rs", "src/decoders/tiff.rs"]}
{"id": "C54", "title": "DNG files decode to what they say", "statement": "A DNG with uncompressed samples, one lossless JPEG or lossless JPEG tiles decodes to the stored picture, and the image repeats what the fields tell: size, samples per pixel, orientation, black and white levels, white balance, crops, filter pattern and colour matrix, with the names of the camera database if it has the camera.", "quantifier": "every set and order of fields, byte order, picture, size, tiling, JPEG code tables, camera database and build mode", "why_tests_cant": "Tiles cut off at the edges, code tables and metadata combine in unboundedly many ways; tests decode a few files.", "anchors": ["src/decoders/dng.rs", "src/decoders/ljpeg.rs: new, decode", "src/decoders/tiff.rs", "src/decoders/cfa.rs: new_from_tag"]}
{"id": "C55", "title": "Level correction and white balance compute what they should", "statement": "After level correction each sample is its height above black as a part of the height of white, times its white balance factor relative to green, cut off at one, to within one part in two million. Brighter samples never become darker ones, and white in green becomes exactly one.", "quantifier": "every picture, levels with black below white, white balance between 2^-20 and 2^20, sample", "why_tests_cant": "Four roundings accumulate; the bound and the order must hold for every single precision sample and coefficient.", "anchors": ["src/imageops/level.rs: level_and_balance"]}
{"id": "C56", "title": "Gamma correction is the BT.709 transfer function", "statement": "Gamma correction maps every sample through the transfer function of BT.709, after cutting it off at 0 and 1 and rounding it down to the next multiple of 2^-16. It keeps the order of samples, also across the joint of the two parts of the function, and its results are from 0 to 1.", "quantifier": "every picture and every sample of it", "why_tests_cant": "The table has 65537 entries with a joint between a straight and a curved part, and samples are any numbers, also negative ones and ones above one.", "anchors": ["src/imageops/gamma.rs: gamma"]}
{"id": "C57", "title": "Whole Canon files decode to their pictures", "statement": "A Canon file decodes to the picture that went into it: the samples of its lossless JPEG, put back from stripes to rows if the file says so, with the size, orientation and white balance (from whichever of the three fields it has) of the file and the names, levels and matrix of the camera database. Small pictures, which hold brightness and shared colour differences, decode to the colours these stand for.", "quantifier": "every file of one directory, with its fields in any order and either byte order, every picture and every stripe layout, every camera without masked areas", "why_tests_cant": "Directory layouts, Huffman tables, stripe widths and pictures are unbounded; a mistake shows for some widths only.", "anchors": ["src/decoders/cr2.rs: image", "src/decoders/cr2.rs: get_wb", "src/decoders/cr2.rs: convert_to_rgb", "src/decoders/mod.rs: decode"]}
{"id": "C58", "title": "Sony's compressed blocks decode to their picture", "statement": "A picture written in Sony's blocks of sixteen values decodes to a picture in which each pixel is on the file's tone curve, give or take the dither, at a value that is never above the one that was coded and at most 15 below it; blocks that span less than 128 lose nothing. The tone curve is the one of the file's four points. Pictures whose width is not a multiple of 32 are never decoded.", "quantifier": "every picture of values of 11 bits with a width that is a multiple of 32, every choice of the places of the extremes, every curve with its points in order and the first at 4 or more, every data after the picture", "why_tests_cant": "How many bits of a block are left out depends on its values, the blocks of even and odd columns are interleaved, and the dither of a pixel depends on its whole row.", "anchors": ["src/decoders/arw.rs: decode_arw2, get_curve", "src/decoders/basics.rs: LookupTable"]}
{"id": "C59", "title": "Directories one inside another", "statement": "Files whose fields are spread over directories that point to each other, with the picture described in one of them and the white balance in the maker's note, decode to the picture that went into them. Every field of every directory is found wherever in the file the directory and its values are; where two directories have the same tag the first counts, each directory coming before those inside it. The notes of Nikon, Pentax, Olympus and those without a heading are followed, with the place from which their own offsets count.", "quantifier": "every tree of directories up to ten deep and every chain of up to a hundred, every place of directories and values in the file, either byte order, every field with any values; files of five makers with every picture", "why_tests_cant": "The layouts of such files are unbounded: order of fields, places of directories, depth, values that hide others.", "anchors": ["src/decoders/tiff.rs: TiffIFD::new, new_makernote, find_entry, find_ifds_with_tag, find_first_ifd", "src/decoders/nef.rs, pef.rs, orf.rs, rw2.rs, mef.rs: image", "src/decoders/mod.rs: decode"]}
{"id": "C60", "title": "DNG files with previews", "statement": "DNG files whose first directory describes something else, such as a preview, decode to the picture that went into them: the picture that counts is that of the first directory, each coming before those inside it, that holds raw data and is not marked as a preview. Names, orientation, white balance and colour matrix are found in whichever directory they are.", "quantifier": "every tree of directories up to ten deep and every chain of up to a hundred with such a directory in it, every place in the file, either byte order, every picture, stored as samples, through a table, as one JPEG or as tiles", "why_tests_cant": "Any number of previews may come before the picture, at any depth, and any directory may hold the fields that describe the whole file.", "anchors": ["src/decoders/dng.rs: image, get_blacklevels, get_whitelevels, get_cfa, get_crops, get_color_matrix, decode_uncompressed, decode_compressed", "src/decoders/tiff.rs: find_ifds_with_tag, find_entry"]}
{"id": "C61", "title": "Canon files as the cameras write them", "statement": "Canon files whose picture is described in a later directory than the first and whose white balance is in the maker's note decode to the picture that went into them: the samples of the JPEG in rows or in stripes, with two rows written as one for the cameras that do so, through the table for the camera that has one, and the colours of small pictures.", "quantifier": "every tree of directories up to ten deep and every chain of up to a hundred, either byte order, every picture, every division into stripes, every white balance field", "why_tests_cant": "The directory of the picture is found in three ways, the white balance in three fields, and the samples can be arranged in any number of stripes of any width; each combination for every picture.", "anchors": ["src/decoders/cr2.rs: image, get_wb, convert_to_rgb", "src/decoders/ljpeg/mod.rs: LjpegDecompressor", "src/decoders/tiff.rs: find_first_ifd, find_entry"]}
{"id": "C62", "title": "Files of Epson, Hasselblad, Kodak and Nikon Coolpix cameras", "statement": "Files of these makers, with the fields spread over several directories, decode to the picture that went into them, with the white levels of the file: Epson's packed samples with a check byte after every ten, Hasselblad's compressed pairs, Kodak's segments of differences and Kodak's bytes through a table, and Nikon's packed rows with the even ones first. Where a camera writes several pictures, the first one more than 1000 wide is the one decoded, however many previews come before it.", "quantifier": "every tree of directories up to ten deep and every chain of up to a hundred, either byte order, every picture and table of values, any number of narrower pictures before the right one", "why_tests_cant": "The choice of the picture depends on the widths in every directory of the file; white levels are computed from any 16-bit numbers in floating point; each for every picture.", "anchors": ["src/decoders/erf.rs: image, get_wb", "src/decoders/tfr.rs: image, get_wb", "src/decoders/dcr.rs: image, get_wb, decode_kodak65000", "src/decoders/dcs.rs: image", "src/decoders/nrw.rs: image, get_wb", "src/decoders/tiff.rs: find_ifds_with_tag"]}
{"id": "C63", "title": "Minolta and ARRI files", "statement": "Files that are not TIFF but have a header of their own decode to the picture that went into them, with the camera, the size, the orientation and the white levels that the header holds: Minolta files, a list of blocks in any order among which the reader skips those it does not know, with packed samples or samples of two bytes; and ARRI files, with everything at a fixed place and white levels as IEEE numbers.", "quantifier": "every list of blocks with different tags, every tree of directories inside the directory block, every picture, every text for the model, every white level", "why_tests_cant": "Blocks may come in any number, order and length, and each decides where the next one and the picture are; a reader may stop one block early and still read the files at hand.", "anchors": ["src/decoders/mrw.rs: MrwDecoder::new, image, get_wb", "src/decoders/ari.rs: image, get_wb", "src/decoders/mod.rs: get_decoder"]}
{"id": "C64", "title": "Files without a header and Kodak EasyShare files", "statement": "A file that starts like no known kind of file and has exactly the size that the database gives for a camera decodes to the picture of that camera: the size of the file and of the picture tell between samples of 10 and of 12 bits, and a hint of the database tells of rows that start on even bytes. EasyShare files decode to their picture, with the margin the file leaves out of its size, found by adding two numbers of a list, with the white levels in any of the three ways they are written.", "quantifier": "every file size and picture size, every picture, anything after the samples; every tree of directories, every list of places, every white level", "why_tests_cant": "The number of bits follows from a division of sizes that must come out right for every camera; places and levels are arbitrary numbers of the file.", "anchors": ["src/decoders/nkd.rs: image", "src/decoders/kdc.rs: image, get_wb", "src/decoders/mod.rs: get_decoder", "src/decoders/basics.rs: decode_12le_16bitaligned, decode_10le_lsb16, decode_12be_msb16"]}
{"id": "C65", "title": "Phase One files decode to the picture they hold", "statement": "A file from a Phase One or Leaf camera, whose TIFF directories (anywhere in the file) name the camera and whose own list of numbers says where the picture, the table of rows, the black level and the white levels are, decodes to exactly the picture that was coded, with the camera's data, the stored black level and the stored white levels. If the list has a tag more than once the last one counts; the order of the list and the places of everything are free.", "quantifier": "every tree of directories, every list, every place, every picture and every choice of lengths by the encoder, any bytes between and after", "why_tests_cant": "The list, the table of rows and the coded rows can be anywhere and in any order; lengths are chosen anew for every group of pixels of every row.", "anchors": ["src/decoders/iiq.rs: image, get_wb, decode_compressed", "src/decoders/tiff.rs: new_file, new_root", "src/decoders/basics.rs: LEu32, LEf32"]}
{"id": "C66", "title": "Files that cannot be decoded are refused with the reason", "statement": "A properly laid out file from an unknown maker, from a camera that the database does not have, or without the directory that describes the picture is refused with a message that says which of these it is; the decoder does not crash on it.", "quantifier": "every tree of directories, every place of everything in the file, every maker and model, every database", "why_tests_cant": "There is no end to the files that lack something; which directories they have and where is free.", "anchors": ["src/decoders/mod.rs: get_decoder, check_supported_with_everything, decode_safe, fetch_ifd!", "src/decoders/dcs.rs: image", "src/decoders/nrw.rs: image", "src/decoders/dng.rs: image", "src/decoders/cr2.rs: image", "src/decoders/arw.rs: image", "src/decoders/rw2.rs: image"]}
{"id": "C67", "title": "Whole Sony files decode to their picture and white balance", "statement": "A Sony file whose picture is stored as plain numbers, as packed samples of 12 bits, in Sony's blocks or in the oldest coding decodes to that picture, with the size, orientation and black levels of its directory and camera; the white balance is the one in the directory that the camera made unreadable with a key. If the private directory is missing, or if the hidden one has no levels of white or cannot be read, the file is refused with a message that says so.", "quantifier": "every tree of directories, every place of the private and of the hidden directory, every key, size and picture, every camera database", "why_tests_cant": "The key has 2^32 values, the hidden directory can be anywhere and its values anywhere in it, and the pictures are unlimited.", "anchors": ["src/decoders/arw.rs: image, get_wb, sony_decrypt, decode_arw1, decode_arw2, get_curve", "src/decoders/tiff.rs: new, get_force_u32", "src/decoders/mod.rs: decode_safe"]}
{"id": "C68", "title": "A file that ends before its picture gives no picture", "statement": "When the directory says that the picture begins after the end of the file, decoding fails with an error; no picture made of other bytes or of zeros is returned.", "quantifier": "every tree of directories, every length of the file, every place of the picture after its end, every database", "why_tests_cant": "A file can be cut at any byte and its picture can be said to be anywhere.", "anchors": ["src/decoders/erf.rs: image", "src/decoders/mef.rs: image", "src/decoders/dcr.rs: image", "src/decoders/pef.rs: image", "src/decoders/tfr.rs: image", "src/decoders/srw.rs: image", "src/decoders/arw.rs: image", "src/decoders/orf.rs: image", "src/decoders/dcs.rs: image", "src/decoders/nrw.rs: image", "src/decoders/kdc.rs: image", "src/decoders/mod.rs: Buffer, decode_safe"]}
