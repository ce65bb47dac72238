{
 "C01": {
  "status": "proved",
  "note": "Value, sign and bounds of every 16/32-bit read."
 },
 "C02": {
  "status": "proved",
  "note": "Any list of requests of 0..32 bits; exhaustion never yields a value."
 },
 "C03": {
  "status": "partial",
  "note": "Proved for data of at least 4 bytes whose last byte is not FF; the excluded inputs make the code panic (two refutations)."
 },
 "C04": {
  "status": "proved",
  "note": "After any sequence of requests, for the three most-significant-first readers."
 },
 "C08": {
  "status": "proved",
  "note": "Small-step interleaving model of par_chunks_mut; rayon's splitting is represented by an arbitrary schedule."
 },
 "C48": {
  "status": "proved",
  "note": "Any client of the most-significant-first reader over a padded file."
 },
 "C05": {
  "status": "partial",
  "note": "All layouts proved exact except decode_10le (big-endian 10 bit), whose third sample of four is wrong in the code: refutation plus the part that holds. The 8-bit table layout is proved up to its dithering."
 },
 "C06": {
  "status": "proved",
  "note": "Round trip for every layout with a reference encoder (all but the defective decode_10le, see C05, and the lossy 8-bit table and skiplines forms)."
 },
 "C07": {
  "status": "proved",
  "note": "Every packed layout, the 8-bit table layout and every decompressor (C07_compressions), for every size and data."
 },
 "C14": {
  "status": "partial",
  "note": "The code saturates only for 16 bits after truncation to u16; for other depths an over-range value gives -1 (refutation)."
 },
 "C15": {
  "status": "partial",
  "note": "Random state and sum never overflow. Between neighbours only where the curve rises evenly; refuted in general (table construction panics, white wraps to black)."
 },
 "C49": {
  "status": "partial",
  "note": "The full statement is false of the code: the last row, or any part of a word-swapped image, may be missing."
 },
 "C09": {
  "status": "proved",
  "note": "Positions below 2^63 (Rust objects cannot be larger). C09_huge_refuted shows what happens at the end of the usize range."
 },
 "C10": {
  "status": "proved",
  "note": "Every filter built from a name and any sequence of shifts; positions below 2^63."
 },
 "C11": {
  "status": "proved",
  "note": "All strings; refusal is a panic."
 },
 "C12": {
  "status": "proved",
  "note": "Non-empty buffers of any sample type; zero-sized buffers panic (C12_empty_refuted)."
 },
 "C13": {
  "status": "proved",
  "note": "All pairs of orientations on every well-formed buffer."
 },
 "C16": {
  "status": "partial",
  "note": "Decoding of canonical codes proved for every well-formed table the program accepts and every reader kind it is used with; words of more than 8 bits need length <= precision. Three refutations: full tables with 16-bit words (debug), incomplete tables with 16-bit words at precision 16, and the last of 256 words alone in its length."
 },
 "C17": {
  "status": "partial",
  "note": "The 13-bit shortcut is proved transparent for all tables whose category-16 word has at most 13 bits and is not used with the DNG variant; refuted otherwise."
 },
 "C18": {
  "status": "proved",
  "note": "Bijection between differences and (category, extra bits), and round trip of encoded difference sequences through the decoder, with and without the shortcut."
 },
 "C19": {
  "status": "partial",
  "note": "Predictor 1 with 2, 3 and 4 components, 4:2:2 and 4:2:0 colour, Leaf strips and Hasselblad pairs proved for all pictures, positions and crops. Odd widths are refuted."
 },
 "C20": {
  "status": "partial",
  "note": "Whole-file round trip proved for 2 to 4 components, for 4:2:2 and 4:2:0 colour and for Hasselblad files, all tables, precisions and sizes; the row distance is refuted for four components. Bytes between segments are skipped up to the first marker."
 },
 "C21": {
  "status": "proved",
  "note": "find_entry/has_entry/find_first_ifd for every tree, first directory in preorder; in parsed files the entry has the tag asked for; CIFF lookup likewise."
 },
 "C22": {
  "status": "partial",
  "note": "The list has exactly the directories with the tag, outermost first; the once part is false of the code (every directory but the root is listed twice): C22_once_refuted."
 },
 "C23": {
  "status": "proved",
  "note": "TIFF (with RAF and makernotes) and CIFF: parsing ends, nesting at most 13/10, at most 100 chained directories, >4000 entries is an error. C23_total_refuted: a file of 26+4n bytes gives more than n^10 directories."
 },
 "C24": {
  "status": "proved",
  "note": "Round trip through an independent encoder for both byte orders, integer types, inline and out-of-line values."
 },
 "C25": {
  "status": "partial",
  "note": "Every entry of a parsed file owns count x size bytes of it; integer types are readable below the count. False for UNDEFINED and the remaining types: C25_undefined_refuted, C25_other_types_refuted. get_f32 not covered here."
 },
 "C31": {
  "status": "proved",
  "note": "Stream cipher specification (existence and uniqueness of the key stream), length, totality, involution, for every file, offset, length and key."
 },
 "C32": {
  "status": "partial",
  "note": "Both orientations for every size with the even side; one to one; directions become diagonals. Odd sizes are refuted (panic)."
 },
 "C33": {
  "status": "proved",
  "note": "For every picture; the line order is a permutation."
 },
 "C34": {
  "status": "partial",
  "note": "Round trip for every picture of even height, order visits every pixel exactly once. Odd heights leave rows at 0 and height 0 panics: refuted."
 },
 "C35": {
  "status": "partial",
  "note": "One-line stripes for all widths, subsamplings, components; two-line stripes of equal width. A wider last stripe is misplaced: refuted."
 },
 "C36": {
  "status": "partial",
  "note": "One sample per pixel: exact. Three samples per pixel: refuted (the line start lacks the factor 3); the partial theorem says which samples are taken instead."
 },
 "C37": {
  "status": "proved",
  "note": "Every decoded image, crop and filter pattern, in IEEE single precision; the mean is the correctly rounded mean."
 },
 "C38": {
  "status": "partial",
  "note": "Sizes and bounds below 2^23, IEEE single precision. A side that rounds to 0 panics (C38_zero_refuted)."
 },
 "C39": {
  "status": "partial",
  "note": "False of the code: C39_blank_refuted (row and column steps exchanged)."
 },
 "C40": {
  "status": "proved",
  "note": "Every float, including NaN and infinities, for the gamma table, the cube root table and the byte conversion; and to_rgb, to_linear_rgb and to_srgb end to end for the pictures decoders make, sides below 2^23, and size limits that leave at least one pixel (below that the code panics, see C38)."
 },
 "C41": {
  "status": "proved",
  "note": "Every float, and every picture of four components."
 },
 "C42": {
  "status": "proved",
  "note": "Over the reals. The matrices are left inverses; the picture made with them is nevertheless not neutral for white light (C42_white_refuted)."
 },
 "C43": {
  "status": "partial",
  "note": "Exact with exact cube roots; with the table of 65536 cube roots that the code uses, within 2/65536 (C43_table_partial). Rounding of single precision is not covered."
 },
 "C44": {
  "status": "proved",
  "note": "Single precision: total, control points, beyond the last point. Exact arithmetic: one cubic per interval, monotone if the values are."
 },
 "C29": {
  "status": "proved",
  "note": "Every database of tables with different keys; the TOML parser is not modelled. Lookup by key and by file size."
 },
 "C30": {
  "status": "partial",
  "note": "All 442 shipped declarations (736 with aliases and modes) fit and load; keys are unique but for ten, of which eight carry different data: C30_conflicts_refuted."
 },
 "C28": {
  "status": "proved",
  "note": "Signatures, order, TIFF formats and headerless files: complete. Recognition never fails, except that a file cut short after the Fuji signature panics (C28_fuji_refuted); that panic is caught by decode_safe."
 },
 "C26": {
  "status": "proved",
  "note": "Whole pipeline of lib.rs decode with the shipped cameras: the outcome is an image or an error, never a panic. Aborts (allocation failure, stack overflow) are outside the model. The trap of C27 does not return at all."
 },
 "C27": {
  "status": "partial",
  "note": "The whole decode, through every format decoder, ends for every file in debug builds, and in release builds for every file but those with a Minolta block of length 2^32-8 (minolta_trap). For those it is false: C27_mrw_refuted."
 },
 "C46": {
  "status": "proved",
  "note": "Every format but DNG: the make, model and mode (or the size of a headerless file) have a declaration in the database, the last such one is used, and names, colour matrix, colour filter and white level of the image are the ones it declares. Black level: unless the file has its own (IIQ, PEF) or the camera declares a black area. Crops: unless small raw or rotated Fuji. C46_dng says where the names of a DNG come from."
 },
 "C45": {
  "status": "partial",
  "note": "Every file through every format: C45_size for all but Canon CR2. C45_cr2_partial: CR2 pictures of one component with stripes, without double lines or with even ones; pictures of three components with a size tag and stripes or the size of their JPEG, or without a size tag and with whole pixels. The other CR2 pictures are refuted: C45_odd_refuted (double lines of an odd number of samples), C45_size_tags_refuted (size tags that disagree with the JPEG), C45_no_rows_refuted (lines that are not whole pixels)."
 },
 "C47": {
  "status": "partial",
  "note": "Proved: Pentax (built-in and own code table), Nikon (the four codes a picture can start with, curve and dithering described exactly, rows before the change of code), Phase One, Canon CRW (all three tables, with and without separate low bits), Olympus, Panasonic (data in order; data in two parts but for one group in 1024), Samsung's three compressions, Kodak DCR (Sony ARW1 is C34_arw1). Refuted: pictures of odd width (Pentax, Nikon, Olympus) and odd height (Samsung's first), widths not a multiple of sixteen (Samsung's third), Canon CRW pictures of incomplete blocks, exactness of Nikon's lossless mode, the group where the two parts of a Panasonic block meet, Panasonic data that end the file. Nikon rows after the change of code: refuted for debug builds when a word with a leaf that is not a length comes first (C47_nikon_change_refuted). Missing: the other words of that code, and release builds after the change."
 },
 "C50": {
  "status": "partial",
  "note": "Proved when the sum of the samples of a colour is below 2^24 and there are at most 2^24 of them, and for cameras without masked areas. Refuted for larger sums (C50_rounding_refuted). Missing: how far the level of a large area can be off."
 },
 "C51": {
  "status": "partial",
  "note": "Proved for fractions, integers, IEEE numbers of headers, and patterns of red, green and blue. FLOAT, DOUBLE, SBYTE and text values panic (C51_other_types_refuted), and so do patterns with other colours (second part of C51_pattern). Fields of directories below the first are read by the same functions but the round trip is stated for one directory."
 },
 "C52": {
  "status": "partial",
  "note": "Proved for the white balance of the tag Cr2ColorData with red and blue levels of at least 56 and a green level of at most 27948, where nothing overflows. Refuted below (C52_overflow_refuted). Missing: the white balance of the two other tags."
 },
 "C53": {
  "status": "partial",
  "note": "Proved for files of one directory from cameras without masked areas: Mamiya, Pentax (uncompressed, 12 bits, compressed with the fixed code), Olympus (uncompressed, compressed), Nikon (uncompressed 12/14 bits, compressed up to the change of code), Panasonic (uncompressed, compressed in order, compressed in blocks except the group across the two parts, which C47 refutes). Missing: directories nested in others (C59), makers other than these and those of C54, C57, C62, C63, C64 and C65, and the other ways to store the white balance."
 },
 "C54": {
  "status": "partial",
  "note": "Proved for files of one directory with 16 bit (lower byte first) and 12 bit samples, one JPEG, and tiles, with all fields the program reads. 8 bit samples come back up to the noise the program adds (C54_table_partial). Refuted for 16 bit samples in big-endian files (C54_big_endian_refuted). 10 bit samples are decoded wrongly (C05_10be_refuted). Files with several directories: C60."
 },
 "C55": {
  "status": "proved",
  "note": "Pictures without usable white balance get the neutral one, which is C42_neutral."
 },
 "C56": {
  "status": "partial",
  "note": "In exact arithmetic, with the mathematical power function. Missing: the rounding of single precision numbers and of the platform's power function."
 },
 "C57": {
  "status": "partial",
  "note": "Proved for files of one directory from cameras without masked areas and without the hints linearization and double_line. Small pictures: with the white balance in the colour data and red and blue at least 56, green at most 27948. Nested directories and the two hints: C61. Missing: JPEGs of one component, and small pictures with other white balance fields."
 },
 "C58": {
  "status": "proved",
  "note": "The data are those an encoder that follows the format writes; damaged blocks are covered by C26 and C27 only. The curve is stated point by point, the dither exactly and as a bound."
 },
 "C59": {
  "status": "partial",
  "note": "Searching is proved for all such files. Whole files: Mamiya, Pentax, Olympus, Nikon and Panasonic, from cameras without masked areas; C60, C61, C62, C64 and C65 do the same for DNG, Canon and six more; missing are the remaining makers, the rows after the change of code of some Nikon files and the group between the two parts of a block of some Panasonic files (C47 refutes both)."
 },
 "C60": {
  "status": "partial",
  "note": "Proved for the same kinds of files as C54. 8 bit samples come back up to the noise the program adds (C60_table_partial). Refuted for 16 bit samples in big-endian files (C60_big_endian_refuted)."
 },
 "C61": {
  "status": "partial",
  "note": "Cameras without masked areas, JPEGs of two to four components. Samples that go through a table come back up to the noise the program adds, for increasing tables that are not too steep (C61_linear_partial). Small pictures: white balance in the colour data, levels as in C52; missing are the two other fields (C61_small_partial)."
 },
 "C62": {
  "status": "partial",
  "note": "Cameras without masked areas. Samples that go through a table (both kinds of Kodak) come back up to the noise the program adds, for increasing tables that are not too steep. Nothing is said of Kodak white levels of zero, nor of Nikon levels that do not fit in 32 bits. White levels of Hasselblad are proved for fractions of numbers up to 2^24."
 },
 "C63": {
  "status": "partial",
  "note": "Cameras without masked areas; Minolta: blocks with different tags, the last one of more than 12 bytes. Refuted for a last block of 12 bytes (C63_last_block_refuted): it is not read. ARRI: pictures whose number of samples is a multiple of 8."
 },
 "C64": {
  "status": "partial",
  "note": "Cameras without masked areas in the database. Headerless: files that do not start as a TIFF file does; pictures of which the number of samples fits the layout (a multiple of 4 for 12 bits, a width that is a multiple of 8 for 10 bits, an even width for rows on even bytes). EasyShare: even widths."
 },
 "C65": {
  "status": "partial",
  "note": "Cameras without masked areas in the database, black levels that fit in 16 bits after the division by 4. Each coded row takes a multiple of four bytes."
 },
 "C66": {
  "status": "partial",
  "note": "Refuted for Kodak DCS and Nikon Coolpix files without a wide picture and for DNGs without a full-size picture and for EasyShare files with fewer than 13 places: the decoder panics. An unknown camera: all makers but Panasonic, Leica and NIKON CORPORATION, whose decoders look at the picture first (that such a file does not decode is C46). No picture: not for Leaf and Phase One, which do not keep it in a directory."
 },
 "C67": {
  "status": "partial",
  "note": "All layouts of pictures whose place the file gives. Missing: the DSLR-A100 and the SRF files, which do not give it; a hidden directory that itself points to further directories; odd heights and incomplete blocks (see C34, C58). Refuted for a hidden part that is no directory or that goes on after the end of the file: the decoder panics."
 },
 "C68": {
  "status": "partial",
  "note": "Epson, Mamiya, Kodak (DCR, DCS, EasyShare), Pentax, Hasselblad, Samsung, Sony, Olympus and Nikon Coolpix. The error is that of a caught panic: slicing the buffer fails. Refuted for the last of the 16 bytes: a Coolpix file with the msb32 layout decodes to a black picture. Missing: the other makers; files that end within their picture (for packed data see C49)."
 }
}