{
 "claims": [
  {
   "property": "C01",
   "status": "proved",
   "theorems": [
    "C01_read_value",
    "C01_read_signed",
    "C01_read_outside"
   ],
   "note": "Value, sign and bounds of every 16/32-bit read."
  },
  {
   "property": "C02",
   "status": "proved",
   "theorems": [
    "C02_lsb_reader",
    "C02_msb_reader",
    "C02_msb32_reader",
    "C02_exhausted_reader"
   ],
   "note": "Any list of requests of 0..32 bits; exhaustion never yields a value."
  },
  {
   "property": "C03",
   "status": "partial",
   "theorems": [
    "C03_jpeg_reader",
    "C03_short_data_refuted",
    "C03_trailing_ff_refuted"
   ],
   "note": "Proved for data of at least 4 bytes whose last byte is not FF; the excluded inputs make the code panic (two refutations)."
  },
  {
   "property": "C04",
   "status": "proved",
   "theorems": [
    "C04_signed_field"
   ],
   "note": "After any sequence of requests, for the three most-significant-first readers."
  },
  {
   "property": "C05",
   "status": "partial",
   "theorems": [
    "C05_12be",
    "C05_12le",
    "C05_12be_rows_on_word_boundary",
    "C05_12be_words16",
    "C05_12be_words32",
    "C05_10le_words16",
    "C05_12be_control_bytes",
    "C05_12le_control_bytes",
    "C05_12be_interlaced",
    "C05_12be_interlaced_contiguous",
    "C05_12le_in_16",
    "C05_12be_in_16",
    "C05_12be_left_in_16",
    "C05_12le_left_in_16",
    "C05_14le_in_16",
    "C05_14be_in_16",
    "C05_16le",
    "C05_16be",
    "C05_16le_every_other_row",
    "C05_8bit_table",
    "C05_10be_refuted",
    "C05_10be_partial"
   ],
   "note": "All layouts proved exact except decode_10le (big-endian 10 bit), whose third sample of four is wrong in the code: refutation plus the part that holds. The 8-bit table layout is proved up to its dithering."
  },
  {
   "property": "C06",
   "status": "proved",
   "theorems": [
    "C06_12be",
    "C06_12le",
    "C06_12be_words16",
    "C06_12be_words32",
    "C06_10le_words16",
    "C06_12be_rows_on_word_boundary",
    "C06_12be_control_bytes",
    "C06_12le_control_bytes",
    "C06_12be_interlaced",
    "C06_12be_interlaced_contiguous",
    "C06_16le",
    "C06_16be",
    "C06_12le_in_16",
    "C06_12be_in_16",
    "C06_14le_in_16",
    "C06_14be_in_16",
    "C06_12le_left_in_16",
    "C06_12be_left_in_16"
   ],
   "note": "Round trip for every layout with a reference encoder (all but the defective decode_10le, see C05, and the lossy 8-bit table and skiplines forms)."
  },
  {
   "property": "C07",
   "status": "proved",
   "theorems": [
    "C07_compressions",
    "C07_packed_layouts",
    "C07_8bit_table"
   ],
   "note": "Every packed layout, the 8-bit table layout and every decompressor (C07_compressions), for every size and data."
  },
  {
   "property": "C08",
   "status": "proved",
   "theorems": [
    "C08_rows_any_schedule",
    "C08_blocks_any_schedule",
    "C08_two_schedules_agree"
   ],
   "note": "Small-step interleaving model of par_chunks_mut; rayon's splitting is represented by an arbitrary schedule."
  },
  {
   "property": "C09",
   "status": "proved",
   "theorems": [
    "C09_periodic",
    "C09_huge_refuted"
   ],
   "note": "Positions below 2^63 (Rust objects cannot be larger). C09_huge_refuted shows what happens at the end of the usize range."
  },
  {
   "property": "C10",
   "status": "proved",
   "theorems": [
    "C10_shift",
    "C10_shifts_compose",
    "C10_shift_size",
    "C10_clone",
    "C10_crop"
   ],
   "note": "Every filter built from a name and any sequence of shifts; positions below 2^63."
  },
  {
   "property": "C11",
   "status": "proved",
   "theorems": [
    "C11_accepts_exactly",
    "C11_refuses",
    "C11_planes",
    "C11_valid",
    "C11_valid_any"
   ],
   "note": "All strings; refusal is a panic."
  },
  {
   "property": "C12",
   "status": "proved",
   "theorems": [
    "C12_exif",
    "C12_every_output_pixel",
    "C12_other_tags",
    "C12_empty_refuted"
   ],
   "note": "Non-empty buffers of any sample type; zero-sized buffers panic (C12_empty_refuted)."
  },
  {
   "property": "C13",
   "status": "proved",
   "theorems": [
    "C13_compose",
    "C13_closed",
    "C13_invertible",
    "C13_involutions",
    "C13_quarter_turns"
   ],
   "note": "All pairs of orientations on every well-formed buffer."
  },
  {
   "property": "C14",
   "status": "partial",
   "theorems": [
    "C14_clamp_16",
    "C14_clamp_partial",
    "C14_clamp_refuted"
   ],
   "note": "The code saturates only for 16 bits after truncation to u16; for other depths an over-range value gives -1 (refutation)."
  },
  {
   "property": "C15",
   "status": "partial",
   "theorems": [
    "C15_never_overflows",
    "C15_between_partial",
    "C15_near",
    "C15_curve_refuted",
    "C15_wraps_refuted"
   ],
   "note": "Random state and sum never overflow. Between neighbours only where the curve rises evenly; refuted in general (table construction panics, white wraps to black)."
  },
  {
   "property": "C16",
   "status": "partial",
   "theorems": [
    "C16_decodes",
    "C16_refuses",
    "C16_prefix_free",
    "C16_accepts_partial",
    "C16_full_table_refuted",
    "C16_sixteen_bits_refuted",
    "C16_last_word_refuted"
   ],
   "note": "Decoding of canonical codes proved for every well-formed table the program accepts and every reader kind it is used with; words of more than 8 bits need length <= precision. Three refutations: full tables with 16-bit words (debug), incomplete tables with 16-bit words at precision 16, and the last of 256 words alone in its length."
  },
  {
   "property": "C17",
   "status": "partial",
   "theorems": [
    "C17_shortcut_transparent",
    "C17_shortcut_transparent_jpeg",
    "C17_long_word_refuted",
    "C17_dng_refuted"
   ],
   "note": "The 13-bit shortcut is proved transparent for all tables whose category-16 word has at most 13 bits and is not used with the DNG variant; refuted otherwise."
  },
  {
   "property": "C18",
   "status": "proved",
   "theorems": [
    "C18_unique_code",
    "C18_magnitude",
    "C18_round_trip"
   ],
   "note": "Bijection between differences and (category, extra bits), and round trip of encoded difference sequences through the decoder, with and without the shortcut."
  },
  {
   "property": "C19",
   "status": "partial",
   "theorems": [
    "C19_inverts_prediction",
    "C19_leaf_strip",
    "C19_subsampled",
    "C19_hasselblad",
    "C19_odd_width_refuted"
   ],
   "note": "Predictor 1 with 2, 3 and 4 components, 4:2:2 and 4:2:0 colour, Leaf strips and Hasselblad pairs proved for all pictures, positions and crops. Odd widths are refuted."
  },
  {
   "property": "C20",
   "status": "partial",
   "theorems": [
    "C20_round_trip",
    "C20_four_components_refuted",
    "C20_next_marker",
    "C20_subsampled_file",
    "C20_hasselblad_file"
   ],
   "note": "Whole-file round trip proved for 2 to 4 components, for 4:2:2 and 4:2:0 colour and for Hasselblad files, all tables, precisions and sizes; the row distance is refuted for four components. Bytes between segments are skipped up to the first marker."
  },
  {
   "property": "C21",
   "status": "proved",
   "theorems": [
    "C21_first_entry",
    "C21_directories",
    "C21_presence",
    "C21_first_directory",
    "C21_file",
    "C21_ciff"
   ],
   "note": "find_entry/has_entry/find_first_ifd for every tree, first directory in preorder; in parsed files the entry has the tag asked for; CIFF lookup likewise."
  },
  {
   "property": "C22",
   "status": "partial",
   "theorems": [
    "C22_complete_partial",
    "C22_list_partial",
    "C22_once_refuted"
   ],
   "note": "The list has exactly the directories with the tag, outermost first; the once part is false of the code (every directory but the root is listed twice): C22_once_refuted."
  },
  {
   "property": "C23",
   "status": "proved",
   "theorems": [
    "C23_ends",
    "C23_ciff_ends",
    "C23_shape",
    "C23_chain",
    "C23_levels",
    "C23_entries",
    "C23_ciff_shape",
    "C23_total_refuted"
   ],
   "note": "TIFF (with RAF and makernotes) and CIFF: parsing ends, nesting at most 13/10, at most 100 chained directories, >4000 entries is an error. C23_total_refuted: a file of 26+4n bytes gives more than n^10 directories."
  },
  {
   "property": "C24",
   "status": "proved",
   "theorems": [
    "C24_round_trip"
   ],
   "note": "Round trip through an independent encoder for both byte orders, integer types, inline and out-of-line values."
  },
  {
   "property": "C25",
   "status": "partial",
   "theorems": [
    "C25_readable_partial",
    "C25_ciff",
    "C25_undefined_refuted",
    "C25_other_types_refuted"
   ],
   "note": "Every entry of a parsed file owns count x size bytes of it; integer types are readable below the count. False for UNDEFINED and the remaining types: C25_undefined_refuted, C25_other_types_refuted. get_f32 not covered here."
  },
  {
   "property": "C26",
   "status": "proved",
   "theorems": [
    "C26_no_panic",
    "C26_answer",
    "C26_any_database",
    "C26_caught"
   ],
   "note": "Whole pipeline of lib.rs decode with the shipped cameras: the outcome is an image or an error, never a panic. Aborts (allocation failure, stack overflow) are outside the model. The trap of C27 does not return at all."
  },
  {
   "property": "C27",
   "status": "partial",
   "theorems": [
    "C27_debug",
    "C27_ends",
    "C27_other_formats",
    "C27_mrw_refuted"
   ],
   "note": "The whole decode, through every format decoder, ends for every file in debug builds, and in release builds for every file but those with a Minolta block of length 2^32-8 (minolta_trap). For those it is false: C27_mrw_refuted."
  },
  {
   "property": "C28",
   "status": "proved",
   "theorems": [
    "C28_total",
    "C28_signature_only",
    "C28_order",
    "C28_container",
    "C28_tiff",
    "C28_headerless",
    "C28_unknown",
    "C28_tiny",
    "C28_fuji_refuted"
   ],
   "note": "Signatures, order, TIFF formats and headerless files: complete. Recognition never fails, except that a file cut short after the Fuji signature panics (C28_fuji_refuted); that panic is caught by decode_safe."
  },
  {
   "property": "C29",
   "status": "proved",
   "theorems": [
    "C29_lookup",
    "C29_naked",
    "C29_supported"
   ],
   "note": "Every database of tables with different keys; the TOML parser is not modelled. Lookup by key and by file size."
  },
  {
   "property": "C30",
   "status": "partial",
   "theorems": [
    "C30_fine",
    "C30_fine_loads",
    "C30_loads",
    "C30_keys_partial",
    "C30_same",
    "C30_conflicts_refuted",
    "C30_sizes"
   ],
   "note": "All 442 shipped declarations (736 with aliases and modes) fit and load; keys are unique but for ten, of which eight carry different data: C30_conflicts_refuted."
  },
  {
   "property": "C31",
   "status": "proved",
   "theorems": [
    "C31_stream_cipher",
    "C31_sequence_exists",
    "C31_sequence_unique",
    "C31_total",
    "C31_enough",
    "C31_involution"
   ],
   "note": "Stream cipher specification (existence and uniqueness of the key stream), length, totality, involution, for every file, offset, length and key."
  },
  {
   "property": "C32",
   "status": "partial",
   "theorems": [
    "C32_rotation",
    "C32_rotation_alt",
    "C32_one_to_one",
    "C32_one_to_one_alt",
    "C32_diagonals",
    "C32_odd_refuted",
    "C32_odd_alt_refuted"
   ],
   "note": "Both orientations for every size with the even side; one to one; directions become diagonals. Odd sizes are refuted (panic)."
  },
  {
   "property": "C33",
   "status": "proved",
   "theorems": [
    "C33_interlace",
    "C33_permutation"
   ],
   "note": "For every picture; the line order is a permutation."
  },
  {
   "property": "C34",
   "status": "partial",
   "theorems": [
    "C34_arw1",
    "C34_every_pixel",
    "C34_once",
    "C34_odd_refuted",
    "C34_no_rows_refuted"
   ],
   "note": "Round trip for every picture of even height, order visits every pixel exactly once. Odd heights leave rows at 0 and height 0 panics: refuted."
  },
  {
   "property": "C35",
   "status": "partial",
   "theorems": [
    "C35_stripes",
    "C35_two_lines",
    "C35_last_stripe_refuted"
   ],
   "note": "One-line stripes for all widths, subsamplings, components; two-line stripes of equal width. A wider last stripe is misplaced: refuted."
  },
  {
   "property": "C36",
   "status": "partial",
   "theorems": [
    "C36_sensor",
    "C36_monochrome",
    "C36_rgb_partial",
    "C36_rgb_refuted"
   ],
   "note": "One sample per pixel: exact. Three samples per pixel: refuted (the line start lacks the factor 3); the partial theorem says which samples are taken instead."
  },
  {
   "property": "C37",
   "status": "proved",
   "theorems": [
    "C37_kept",
    "C37_mean",
    "C37_between",
    "C37_no_neighbour",
    "C37_total"
   ],
   "note": "Every decoded image, crop and filter pattern, in IEEE single precision; the mean is the correctly rounded mean."
  },
  {
   "property": "C38",
   "status": "partial",
   "theorems": [
    "C38_fits",
    "C38_unchanged",
    "C38_ratio",
    "C38_unlimited",
    "C38_zero_refuted"
   ],
   "note": "Sizes and bounds below 2^23, IEEE single precision. A side that rounds to 0 panics (C38_zero_refuted)."
  },
  {
   "property": "C39",
   "status": "partial",
   "theorems": [
    "C39_blank_refuted"
   ],
   "note": "False of the code: C39_blank_refuted (row and column steps exchanged)."
  },
  {
   "property": "C40",
   "status": "proved",
   "theorems": [
    "C40_gamma",
    "C40_cube_roots",
    "C40_byte",
    "C40_to_srgb",
    "C40_to_rgb"
   ],
   "note": "Every float, including NaN and infinities, for the gamma table, the cube root table and the byte conversion; and to_rgb, to_linear_rgb and to_srgb end to end for the pictures decoders make, sides below 2^23, and size limits that leave at least one pixel (below that the code panics, see C38)."
  },
  {
   "property": "C41",
   "status": "proved",
   "theorems": [
    "C41_value",
    "C41_picture"
   ],
   "note": "Every float, and every picture of four components."
  },
  {
   "property": "C42",
   "status": "proved",
   "theorems": [
    "C42_inverse",
    "C42_pseudoinverse",
    "C42_camera_to_rgb",
    "C42_camera_to_xyz",
    "C42_neutral",
    "C42_white_refuted",
    "C42_white"
   ],
   "note": "Over the reals. The matrices are left inverses; the picture made with them is nevertheless not neutral for white light (C42_white_refuted)."
  },
  {
   "property": "C43",
   "status": "partial",
   "theorems": [
    "C43_exact",
    "C43_table_partial"
   ],
   "note": "Exact with exact cube roots; with the table of 65536 cube roots that the code uses, within 2/65536 (C43_table_partial). Rounding of single precision is not covered."
  },
  {
   "property": "C44",
   "status": "proved",
   "theorems": [
    "C44_single",
    "C44_exact"
   ],
   "note": "Single precision: total, control points, beyond the last point. Exact arithmetic: one cubic per interval, monotone if the values are."
  },
  {
   "property": "C45",
   "status": "partial",
   "theorems": [
    "C45_size",
    "C45_cr2_partial",
    "C45_odd_refuted",
    "C45_size_tags_refuted",
    "C45_no_rows_refuted"
   ],
   "note": "Every file through every format: C45_size for all but Canon CR2. C45_cr2_partial: CR2 pictures of one component with stripes, without double lines or with even ones; pictures of three components with a size tag and stripes or the size of their JPEG, or without a size tag and with whole pixels. The other CR2 pictures are refuted: C45_odd_refuted (double lines of an odd number of samples), C45_size_tags_refuted (size tags that disagree with the JPEG), C45_no_rows_refuted (lines that are not whole pixels)."
  },
  {
   "property": "C46",
   "status": "proved",
   "theorems": [
    "C46_known",
    "C46_cameras",
    "C46_dng"
   ],
   "note": "Every format but DNG: the make, model and mode (or the size of a headerless file) have a declaration in the database, the last such one is used, and names, colour matrix, colour filter and white level of the image are the ones it declares. Black level: unless the file has its own (IIQ, PEF) or the camera declares a black area. Crops: unless small raw or rotated Fuji. C46_dng says where the names of a DNG come from."
  },
  {
   "property": "C47",
   "status": "partial",
   "theorems": [
    "C47_pentax",
    "C47_pentax_own_table",
    "C47_pentax_odd_refuted",
    "C47_samsung2",
    "C47_nikon_partial",
    "C47_nikon_near",
    "C47_nikon_lossless_partial",
    "C47_nikon_odd_refuted",
    "C47_nikon_lossless_refuted",
    "C47_phase_one",
    "C47_canon",
    "C47_canon_plain",
    "C47_canon_short_refuted",
    "C47_olympus",
    "C47_olympus_odd_refuted",
    "C47_panasonic",
    "C47_panasonic_split_partial",
    "C47_panasonic_split_refuted",
    "C47_panasonic_end_refuted",
    "C47_kodak",
    "C47_samsung1",
    "C47_samsung1_odd_refuted",
    "C47_samsung3",
    "C47_samsung3_width_refuted",
    "C47_nikon_change_refuted"
   ],
   "note": "Proved: Pentax (built-in and own code table), Nikon (the four codes a picture can start with, curve and dithering described exactly, rows before the change of code), Phase One, Canon CRW (all three tables, with and without separate low bits), Olympus, Panasonic (data in order; data in two parts but for one group in 1024), Samsung's three compressions, Kodak DCR (Sony ARW1 is C34_arw1). Refuted: pictures of odd width (Pentax, Nikon, Olympus) and odd height (Samsung's first), widths not a multiple of sixteen (Samsung's third), Canon CRW pictures of incomplete blocks, exactness of Nikon's lossless mode, the group where the two parts of a Panasonic block meet, Panasonic data that end the file. Nikon rows after the change of code: refuted for debug builds when a word with a leaf that is not a length comes first (C47_nikon_change_refuted). Missing: the other words of that code, and release builds after the change."
  },
  {
   "property": "C48",
   "status": "proved",
   "theorems": [
    "C48_padding_readable"
   ],
   "note": "Any client of the most-significant-first reader over a padded file."
  },
  {
   "property": "C49",
   "status": "partial",
   "theorems": [
    "C49_12be_partial",
    "C49_last_row_refuted",
    "C49_words_refuted"
   ],
   "note": "The full statement is false of the code: the last row, or any part of a word-swapped image, may be missing."
  },
  {
   "property": "C50",
   "status": "partial",
   "theorems": [
    "C50_black_levels_partial",
    "C50_no_areas",
    "C50_rounding_refuted"
   ],
   "note": "Proved when the sum of the samples of a colour is below 2^24 and there are at most 2^24 of them, and for cameras without masked areas. Refuted for larger sums (C50_rounding_refuted). Missing: how far the level of a large area can be off."
  },
  {
   "property": "C51",
   "status": "partial",
   "theorems": [
    "C51_numbers",
    "C51_fraction_bytes",
    "C51_floats",
    "C51_pattern",
    "C51_other_types_refuted"
   ],
   "note": "Proved for fractions, integers, IEEE numbers of headers, and patterns of red, green and blue. FLOAT, DOUBLE, SBYTE and text values panic (C51_other_types_refuted), and so do patterns with other colours (second part of C51_pattern). Fields of directories below the first are read by the same functions but the round trip is stated for one directory."
  },
  {
   "property": "C52",
   "status": "partial",
   "theorems": [
    "C52_colours_partial",
    "C52_overflow_refuted"
   ],
   "note": "Proved for the white balance of the tag Cr2ColorData with red and blue levels of at least 56 and a green level of at most 27948, where nothing overflows. Refuted below (C52_overflow_refuted). Missing: the white balance of the two other tags."
  },
  {
   "property": "C53",
   "status": "partial",
   "theorems": [
    "C53_mamiya",
    "C53_pentax",
    "C53_pentax_compressed",
    "C53_olympus",
    "C53_olympus_compressed",
    "C53_nikon",
    "C53_nikon_compressed_partial",
    "C53_panasonic",
    "C53_panasonic_compressed",
    "C53_panasonic_split_partial"
   ],
   "note": "Proved for files of one directory from cameras without masked areas: Mamiya, Pentax (uncompressed, 12 bits, compressed with the fixed code), Olympus (uncompressed, compressed), Nikon (uncompressed 12/14 bits, compressed up to the change of code), Panasonic (uncompressed, compressed in order, compressed in blocks except the group across the two parts, which C47 refutes). Missing: directories nested in others (C59), makers other than these and those of C54, C57, C62, C63, C64 and C65, and the other ways to store the white balance."
  },
  {
   "property": "C54",
   "status": "partial",
   "theorems": [
    "C54_plain",
    "C54_table_partial",
    "C54_jpeg",
    "C54_tiles",
    "C54_big_endian_refuted"
   ],
   "note": "Proved for files of one directory with 16 bit (lower byte first) and 12 bit samples, one JPEG, and tiles, with all fields the program reads. 8 bit samples come back up to the noise the program adds (C54_table_partial). Refuted for 16 bit samples in big-endian files (C54_big_endian_refuted). 10 bit samples are decoded wrongly (C05_10be_refuted). Files with several directories: C60."
  },
  {
   "property": "C55",
   "status": "proved",
   "theorems": [
    "C55_levels",
    "C55_order",
    "C55_white"
   ],
   "note": "Pictures without usable white balance get the neutral one, which is C42_neutral."
  },
  {
   "property": "C56",
   "status": "partial",
   "theorems": [
    "C56_bt709_partial",
    "C56_order_partial"
   ],
   "note": "In exact arithmetic, with the mathematical power function. Missing: the rounding of single precision numbers and of the platform's power function."
  },
  {
   "property": "C57",
   "status": "partial",
   "theorems": [
    "C57_sensor",
    "C57_small_partial"
   ],
   "note": "Proved for files of one directory from cameras without masked areas and without the hints linearization and double_line. Small pictures: with the white balance in the colour data and red and blue at least 56, green at most 27948. Nested directories and the two hints: C61. Missing: JPEGs of one component, and small pictures with other white balance fields."
  },
  {
   "property": "C58",
   "status": "proved",
   "theorems": [
    "C58_decoded",
    "C58_near",
    "C58_lossless",
    "C58_extremes",
    "C58_widths"
   ],
   "note": "The data are those an encoder that follows the format writes; damaged blocks are covered by C26 and C27 only. The curve is stated point by point, the dither exactly and as a bound."
  },
  {
   "property": "C59",
   "status": "partial",
   "theorems": [
    "C59_fields",
    "C59_mamiya",
    "C59_pentax",
    "C59_pentax_compressed",
    "C59_olympus",
    "C59_olympus_compressed",
    "C59_nikon",
    "C59_nikon_compressed_partial",
    "C59_panasonic",
    "C59_panasonic_compressed",
    "C59_panasonic_split_partial"
   ],
   "note": "Searching is proved for all such files. Whole files: Mamiya, Pentax, Olympus, Nikon and Panasonic, from cameras without masked areas; C60, C61, C62, C64 and C65 do the same for DNG, Canon and six more; missing are the remaining makers, the rows after the change of code of some Nikon files and the group between the two parts of a block of some Panasonic files (C47 refutes both)."
  },
  {
   "property": "C60",
   "status": "partial",
   "theorems": [
    "C60_plain",
    "C60_table_partial",
    "C60_jpeg",
    "C60_tiles",
    "C60_big_endian_refuted"
   ],
   "note": "Proved for the same kinds of files as C54. 8 bit samples come back up to the noise the program adds (C60_table_partial). Refuted for 16 bit samples in big-endian files (C60_big_endian_refuted)."
  },
  {
   "property": "C61",
   "status": "partial",
   "theorems": [
    "C61_sensor",
    "C61_linear_partial",
    "C61_small_partial"
   ],
   "note": "Cameras without masked areas, JPEGs of two to four components. Samples that go through a table come back up to the noise the program adds, for increasing tables that are not too steep (C61_linear_partial). Small pictures: white balance in the colour data, levels as in C52; missing are the two other fields (C61_small_partial)."
  },
  {
   "property": "C62",
   "status": "partial",
   "theorems": [
    "C62_epson",
    "C62_hasselblad",
    "C62_kodak_compressed",
    "C62_kodak_table",
    "C62_coolpix"
   ],
   "note": "Cameras without masked areas. Samples that go through a table (both kinds of Kodak) come back up to the noise the program adds, for increasing tables that are not too steep. Nothing is said of Kodak white levels of zero, nor of Nikon levels that do not fit in 32 bits. White levels of Hasselblad are proved for fractions of numbers up to 2^24."
  },
  {
   "property": "C63",
   "status": "partial",
   "theorems": [
    "C63_minolta",
    "C63_last_block_refuted",
    "C63_arri"
   ],
   "note": "Cameras without masked areas; Minolta: blocks with different tags, the last one of more than 12 bytes. Refuted for a last block of 12 bytes (C63_last_block_refuted): it is not read. ARRI: pictures whose number of samples is a multiple of 8."
  },
  {
   "property": "C64",
   "status": "partial",
   "theorems": [
    "C64_headerless",
    "C64_easyshare"
   ],
   "note": "Cameras without masked areas in the database. Headerless: files that do not start as a TIFF file does; pictures of which the number of samples fits the layout (a multiple of 4 for 12 bits, a width that is a multiple of 8 for 10 bits, an even width for rows on even bytes). EasyShare: even widths."
  },
  {
   "property": "C65",
   "status": "partial",
   "theorems": [
    "C65_phase_one"
   ],
   "note": "Cameras without masked areas in the database, black levels that fit in 16 bits after the division by 4. Each coded row takes a multiple of four bytes."
  },
  {
   "property": "C66",
   "status": "partial",
   "theorems": [
    "C66_unknown_make",
    "C66_unknown_camera_partial",
    "C66_no_picture_partial",
    "C66_nowhere",
    "C66_small_pictures_refuted",
    "C66_previews_refuted",
    "C66_few_places_refuted"
   ],
   "note": "Refuted for Kodak DCS and Nikon Coolpix files without a wide picture and for DNGs without a full-size picture and for EasyShare files with fewer than 13 places: the decoder panics. An unknown camera: all makers but Panasonic, Leica and NIKON CORPORATION, whose decoders look at the picture first (that such a file does not decode is C46). No picture: not for Leaf and Phase One, which do not keep it in a directory."
  },
  {
   "property": "C67",
   "status": "partial",
   "theorems": [
    "C67_sony_partial",
    "C67_no_levels",
    "C67_no_private",
    "C67_damaged_refuted",
    "C67_cut_refuted"
   ],
   "note": "All layouts of pictures whose place the file gives. Missing: the DSLR-A100 and the SRF files, which do not give it; a hidden directory that itself points to further directories; odd heights and incomplete blocks (see C34, C58). Refuted for a hidden part that is no directory or that goes on after the end of the file: the decoder panics."
  },
  {
   "property": "C68",
   "status": "partial",
   "theorems": [
    "C68_cut_partial",
    "C68_cut_wide",
    "C68_cut_easyshare",
    "C68_black_refuted"
   ],
   "note": "Epson, Mamiya, Kodak (DCR, DCS, EasyShare), Pentax, Hasselblad, Samsung, Sony, Olympus and Nikon Coolpix. The error is that of a caught panic: slicing the buffer fails. Refuted for the last of the 16 bytes: a Coolpix file with the msb32 layout decodes to a black picture. Missing: the other makers; files that end within their picture (for packed data see C49)."
  }
 ]
}