# Formal model of rawloader: design

The model is written in Rocq/Coq 8.16.1 under `rocq/theories`. It is a function-by-function
transcription of the Rust source in /repo into total Gallina functions.

## Conventions

- Integers are `Z`; a buffer is `list Z` with entries in 0..255 (bytes) or 0..65535 (samples).
- Every function that can fail returns `res A := Ok a | Err msg | Panic | Loop`.
  `Err` is the Rust `Err(String)`; `Panic` is a Rust panic (index out of range, arithmetic overflow in a
  debug build, explicit `panic!`); `Loop` means that the fuel of a loop that is not obviously terminating ran
  out. That no fuel is too small is proved (C27): the MRW block scan is the only loop of the code that may not end.
- `Mode` (debug or release) is a parameter of every function in which an integer operation may overflow:
  debug builds panic, release builds wrap. `usize` is 64 bits.
- `&mut` arguments become returned values.
- Floats (`f32`) are Flocq `binary_float 24 128` (one NaN), rounding to nearest even.
- Model files contain no proofs; `Spec_*.v` files contain the independent specifications; `P_*.v` files contain
  proofs; `Props_*.v` files contain only the property theorems, each closed by `exact`, with `Print Assumptions`
  and an `Example` showing that the hypotheses are met by a concrete case.
- A name ending in `_refuted` is a theorem saying that the code violates the property, with a witness.
  A name ending in `_partial` proves part of a property; the missing part is stated next to it.

## Plan per property

- **C01** Multi-byte integers are read with the file's byte order. Bytes.v models the readers as total functions into an outcome type. Spec: positional value by Horner over the slice. Proof: list lemmas plus disjoint-or arithmetic.
- **C02** Bit readers return the bits of the file in order, without loss or repetition. Pumps.v models the three word pumps. Spec_Bits.v: a stream is a list of booleans. Refinement: representation relation between (cache, fill, position) and the remaining bits; induction over the list of requests.
- **C03** The JPEG bit reader removes byte stuffing and pads with zeros. Same relation with the stream `unstuff data ++ zeros`. Both refill paths are modelled.
- **C04** Signed bit fields are two's complement. Arithmetic lemma over the pump field value.
- **C05** Packed raw formats decode to the exact bit fields stored by the camera. Packed.v models each function including chunking and the zip truncation. Spec: `field (bits of permuted bytes) (12*k) 12`. One theorem per layout. decode_10le is expected to be refuted (third pixel of each group).
- **C06** Packed decoding is lossless: packing then decoding returns the image. Spec packer = bits of the samples regrouped in bytes; corollary of C05.
- **C07** A decoded buffer has exactly the requested number of samples, each a 16-bit value. Invariant over the chunk loops, and over the loops of every decompressor (Spec_Shape.fills).
- **C08** Parallel decoding gives the sequential result for every thread schedule. Threads.v: small-step machines per row over a shared buffer, schedule = arbitrary list of row numbers; commutation proof.
- **C09** Colour filter pattern lookup is the infinite periodic extension of the pattern. Cfa.v models the in-place 48x48 fill; loop invariant.
- **C10** Shifting a colour filter moves the pattern, and shifts compose. From C09 and 48 being a multiple of all pattern sizes.
- **C11** Bad colour filter names are refused, good ones accepted. Case analysis on the length and induction over the characters.
- **C12** Orientation handling implements the EXIF transformations. Transform.v models the row-chunk loops; specification is a coordinate map.
- **C13** Orientation transforms are invertible and form the symmetry group of the rectangle. Corollaries of C12 by extensionality of pixel grids.
- **C14** Clamping to a bit depth saturates. Refutation by computation for depths below 16; proof for `clampbits(v,16) as u16`, and for the lower side at all depths.
- **C15** Tone-curve dithering stays within the neighbouring curve values and never fails. Lookup.v; arithmetic. The full claim fails for steep curves (unsigned underflow), refutation plus partial theorem with the exact condition.
- **C16** Canonical Huffman codes decode to the symbol they encode. Huffman.v models initialize and huff_len. Spec: canonical code assignment as a recursive function on the counts.
- **C17** The fast Huffman lookup table agrees with the bit-by-bit decoder. The table generation is modelled entry by entry; equality of the two decoders on every stream.
- **C18** Difference values follow the JPEG sign-extension rule. Arithmetic and uniqueness.
- **C19** Lossless JPEG decoding inverts prediction. Ljpeg.v; the differences are supplied as a list; induction on rows and columns.
- **C20** Lossless JPEG: encoding then decoding returns the image, down to the bits. Composition of C03, C16-C19.
- **C21** TIFF lookups find a tag exactly when it is present, in a fixed order. Tiff.v; the tree is an inductive type; spec: membership and pre-order list.
- **C22** Listing directories that contain a tag lists each one once. Refutation (duplicates) plus theorem giving the exact multiplicity and set.
- **C23** Parsing any file terminates with bounded nesting. The parser is structurally recursive on the remaining depth; theorem on the depth and size of the result.
- **C24** TIFF values are the same whatever the byte order of the file. Spec serializer for flat directories in both orders; parse after serialize.
- **C25** Entry values can be read at every index below their count. From the slicing in TiffEntry::new. Refuted for types whose element size does not match the reader.
- **C26** Opening a file never crashes the program. decode_safe over the outcome type, for the modelled pipeline. Panics are explicit outcomes of the model so the statement has content.
- **C27** Opening a file always terminates. MRW: fuelled loop; refuted for release builds (length 0xfffffff8 loops for ever), proved for debug builds and for all other lengths.
- **C28** Format recognition looks only at the documented signatures and in a fixed order. Dispatch.v: decision function on the padded buffer.
- **C29** Camera lookups respect make, model and mode, with aliases and mode overrides. Camera.v: database load as a fold; invariant by induction over declarations.
- **C30** The shipped camera database is well formed. CameraData.v is generated from data/cameras; finite sweep by vm_compute over the whole (finite) database.
- **C31** Sony metadata decryption is its own inverse. Arw.v: pad schedule; xor algebra.
- **C32** Fuji sensor rotation places every pixel once. Raf.v: index arithmetic; refutation for odd sizes.
- **C33** Interlaced Leaf rows are put back by a permutation. Mos.v: bijection on [0,height).
- **C34** Sony ARW1 visits every pixel exactly once. Arw.v: visiting order as a list; permutation of all cells. Refuted for odd heights.
- **C35** Canon stripes are reassembled by a permutation of the pixels. Cr2.v: index algebra.
- **C36** Cropping selects the documented rectangle. Gofloat.v; refuted for 3-component images (row stride lacks the factor 3), proved for one component.
- **C37** Demosaicing keeps the measured samples and interpolates within range. Demosaic.v over Flocq binary32.
- **C38** Downscaling fits the requested box and never enlarges. Demosaic.v over Flocq binary32: error analysis of the two divisions.
- **C39** Downscaling averages over the area of each output pixel. Refuted by computation on a concrete size (row and column steps are swapped).
- **C40** 8-bit output is always in range and table lookups never fail. Flocq binary32, case analysis over all floats.
- **C41** Level correction never produces NaN or values above one. Flocq binary32.
- **C42** Camera colour matrices are inverted correctly. Model generic in the number type, instantiated with R; `field`.
- **C43** Lab conversion is inverted exactly by the way back. Same, over R.
- **C44** The base curve passes through its control points and is found by a correct search. Search loop over an abstract ordered list.
- **C45** A decoded image has as many samples as its size and components say. Every decompressor returns as many samples as asked for, every format asks for width * height * cpp (P_Shape1-4); refuted for Canon files with double lines of odd length, with size tags that disagree with the JPEG, and with lines that are not whole pixels.
- **C46** Only known cameras decode. Dispatch.v + Camera.v.
- **C47** Predictive raw formats reconstruct the encoded image. One round trip theorem per format; partial until all are covered.
- **C48** Zero padding makes every bit of the file readable. Composition of the pump theorem with the padding.

- **C49** Missing data are not silently replaced. Counterexample inputs for the packed layouts; theorem on the length below which decoding must fail.
- **C50** Black levels are the averages of the masked areas. Single precision sums below 2^24 are exact (Flocq), and the rounded quotient has the same integer part as the exact one; counterexample above.
- **C51** Numbers and filter patterns of a file. Round trip through a written TIFF file; the error of the quotient from Flocq's relative error; the decoding of IEEE bits against the formula; the pattern through C09.
- **C52** Colours of small Canon pictures. Refinement of the 32 bit arithmetic to integer formulas where nothing overflows; counterexample elsewhere.
- **C53** Whole files. The specification builds a file out of a list of fields and a picture; the parser theorems (C24, C25), dispatch (C28), the camera lookup (C29) and the round trips of the decompressors (C06, C47) are put together to a theorem about `lib_decode` for each maker and compression.
- **C54** DNG files, in the same way, with C20 for the JPEGs, C51 for the numbers and an invariant over the tiles pasted so far.
- **C55** Levels and white balance. The four roundings of the single precision formula are each bounded by 2^-24 relative (Flocq), underflow is excluded by the ranges, and rounding is monotone.
- **C56** Gamma. The model is generic over the numbers, so it is run in the real numbers with `Rpower`; each table entry is the transfer function at its multiple of 2^-16 and the index is the floor of the cut off sample. Order across the joint is 0.1638^20 <= 0.018^9. Rounding is left out.
- **C57** Canon files, as C53, with C20 for the JPEGs, C35 for the stripes and C52 for the colours. The stripes are stated by the place of each sample in the order it is written. Nested directories and two hints are left out.
- **C58** Sony's blocks. The bits of a row are specified block by block (biggest and smallest value, their places, the distances of the others without their lower bits); the decoder is followed along this list with the pump invariant of C07, the curve with a loop invariant, and the dither with the table of C44.
- **C59** Nested directories. `Spec_Tree.v` says what it means that a tree of directories is written in a file (each piece at its place, pointers and maker's notes leading to the directories inside) and which field of a tag is the first. The parser is followed by induction on the depth, the searches by induction on the tree; the whole-file proofs of C53 are repeated with directories that answer as the tree says.
- **C60** DNG files with several directories. `Spec_TreeDng.v` says which directory is that of the picture. The search for it is the filter of the program's list of directories with the tag, which C59's tree gives in order; the rest is C54 repeated with that directory.
- **C61** Canon files with several directories: C57 repeated with C59's trees. `Spec_TreeCanon.v` says where the picture is and in which order its samples are written; the table is followed sample by sample, as in C05.
- **C62** Further makers with several directories (Epson, Hasselblad, Kodak, Nikon Coolpix): C59's trees again, with the formats of C06, C20, C47 and C05. `Spec_TreeMore.v` says which of several pictures counts and how the white levels are written; the search lists a sub-directory twice, so the proof relates it to the trees with repetitions.
- **C63** Files with a header of their own (Minolta, ARRI). `Spec_Header.v` writes a Minolta file as a list of blocks; the scan is followed by induction on the list, its effect being a fold over the blocks, of which only the ones with a known tag count. The directory block is read as in C59. ARRI files are described by what stands at which place.
- **C64** Files without a header, and Kodak EasyShare. `Spec_Naked.v` says how the samples are stored for each number of bits and how places and white levels are written. The round trips of C06 are extended to samples with something after them (the reader always gets 16 more bytes); recognition is C28's.
- **C65** Phase One files. `Spec_PhaseFile.v` says what stands where; the first directory may be anywhere (the trees of C59 start where the header says). Reading the list is a fold over its entries, of which the last one with a tag counts; the rows are those of C47.
- **C66** Files that lack something. `Spec_Missing.v` lists the makers, and the tags by which each of them is known to hold a picture. The parser's result for the trees of C59 has no directory with a tag exactly when the trees have none, so each decoder stops at that point. For four kinds of file it does not stop but crashes (`_refuted`).
- **C67** Sony files. `Spec_SonyFile.v` says where the private directory is, how the hidden one is made unreadable (the sequence of C31) and that its values' places count from the start of the file. The parser is followed over a flat directory with such a base, decryption is C31 read backwards, the picture is C06, C34 or C58, and the rest is the tree of C59.
- **C68** Files that end before their picture. With the trees of C59 each decoder is followed to the point where it takes the part of the buffer from the picture on; the buffer is the file and 16 bytes, so that a place after these fails, and `decode_safe` makes an error of it.

## Trusted base

- Coq's kernel. `vm_compute` is used for small facts; `coqchk` re-checks them with ordinary conversion.
- The reading of the Rust source recorded in the comments of the model files (each definition cites file and lines).
- Axioms, as listed by `Print Assumptions` after each theorem:
  - Properties about integers (C01-C06, C08-C25, C28, C31-C35, C47-C49, two of C07, four of C30, C51_fraction_bytes and
    C51_other_types_refuted): none ("Closed under the global context").
  - Properties about `f32` or real numbers, or about whole decoders, whose images hold `f32` numbers (the others): the axioms
    of Coq's standard library real numbers,
    `ClassicalDedekindReals.sig_forall_dec`, `ClassicalDedekindReals.sig_not_dec`,
    `FunctionalExtensionality.functional_extensionality_dep` and `Classical_Prop.classic`. Flocq adds no axioms of its own.
- Not modelled: the `toml` parser, file reading, the allocator (an allocation never fails), rayon's scheduler (an arbitrary
  schedule stands for it in C08; elsewhere the parallel loops run in order, which C08 justifies), the C library functions
  `cbrt` and `powf` and the parsing of decimal numbers (`str::parse::<f32>`, in mos.rs) (parameters of the model: the theorems
  hold for every such function).

## What is modelled

| Rust source | Model | Properties |
|---|---|---|
| decoders/basics.rs (endian reads, packed layouts, pumps, LookupTable, threads) | Bytes, Pumps, Packed, Lookup, Threads, ByteStream, Clients | C01-C08, C14, C15, C48, C49 |
| decoders/cfa.rs | Cfa | C09-C11 |
| imageops/transform.rs | Transform | C12, C13 |
| decoders/ljpeg/* | Huffman, Ljpeg | C16-C20 |
| decoders/tiff.rs, ciff.rs | Tiff, Ciff | C21-C25 |
| decoders/arw.rs (decryption, ARW1), raf.rs (rotation), mos.rs (interlace), cr2.rs (stripes) | Arw, Raf, Mos, Cr2 | C31-C35 |
| decoders/mod.rs (Camera, RawLoader::new, check_supported), data/cameras/* | Camera, CameraData (written by tools/cameras.py) | C29, C30 |
| decoders/mod.rs (get_decoder, decode, decode_safe, ok_image), lib.rs (decode) | Decoder, Dispatch | C26-C28, C46 |
| decoders/ari, dcs, erf, mef, nkd, tfr, kdc, nrw, dcr .rs | Dec_Simple | C26, C27, C45-C47 |
| decoders/mrw.rs, x3f.rs | Dec_Header | C26, C27, C45, C46 |
| decoders/crw.rs | Dec_Crw | C26, C27, C45-C47 |
| decoders/iiq, pef, orf, rw2, arw .rs | Dec_Pred | C26, C27, C45-C47 |
| decoders/nef.rs, srw.rs | Dec_Nef | C26, C27, C45-C47 |
| decoders/dng, cr2, raf, mos .rs | Dec_Ljpeg | C26, C27, C45, C46 |
| imageops/* , decoders/image.rs | Image, Gofloat, Demosaic, Colors, Pipeline, Num, F32 | C36-C44 |

## What was found in the code

Each has a `_refuted` theorem unless noted.

1. `decode_10le` (packed.rs:55) uses `g3` where `g4` is meant: the third sample of four is wrong (C05_10be_refuted).
2. `clampbits`: a value above the range gives -1 for depths below 16 (C14_clamp_refuted).
3. `LookupTable::new` panics on some rising curves in debug builds (C15_curve_refuted); in all builds the value at the upper
   end of some rising curves can wrap around to black (C15_wraps_refuted).
4. `gofloat::convert`, three samples per pixel: the line start lacks the factor 3 (C36_rgb_refuted).
5. `demosaic::scaled` and `scale_down` exchange the steps of rows and columns: columns at the right stay black
   (C39_blank_refuted). A side that rounds to 0 pixels panics outside of `catch_unwind` (C38_zero_refuted).
6. `find_ifds_with_tag` lists every directory but the first twice (C22_list_partial, C22_once_refuted).
7. Huffman tables: full tables with 16-bit words panic in debug builds (C16_full_table_refuted), a code of one 16-bit word in
   all builds (C16_sixteen_bits_refuted); the last of 256 words is refused if it is alone in its length
   (C16_last_word_refuted); the 13-bit shortcut is not transparent in two cases (C17_long_word_refuted, C17_dng_refuted).
8. The JPEG bit reader panics in debug builds on fewer than 4 bytes (C03_short_data_refuted), and in all builds on a trailing
   FF (C03_trailing_ff_refuted).
9. `rotate_image` (raf.rs) panics on odd heights, with the alternative hint on odd widths (C32_odd_refuted,
   C32_odd_alt_refuted); `decode_arw1` leaves every second row at 0 for odd heights (C34_odd_refuted) and panics for height 0
   (C34_no_rows_refuted).
10. Lossless JPEG: two components panic if the output has an odd width (C19_odd_width_refuted); four components ignore the
    distance between rows that the caller asks for (C20_four_components_refuted).
11. Truncated packed data decode to zeros without an error (C49_last_row_refuted, C49_words_refuted).
12. Canon stripes with vertical subsampling ignore the width of the last stripe (C35_last_stripe_refuted).
13. SubIFD pointers to the same directory are followed again: work grows as n^10 (C23_total_refuted).
14. TIFF values of some types are read with the wrong element size or cannot be read (C25_undefined_refuted,
    C25_other_types_refuted).
15. Turning an empty buffer panics (`par_chunks_mut(0)`, C12_empty_refuted).
16. Colour filter lookup near the end of the `usize` range overflows in debug builds (C09_huge_refuted).
17. White light does not come out neutral: `cam_to_xyz` divides by the D65 white point and `lab_to_rec709` expects absolute
    XYZ, so white becomes about (1.19, 0.95, 0.91) (C42_white_refuted).
18. Eight Canon cameras are declared twice with different data (C30_conflicts_refuted): 300d.toml has the alias
    "EOS 350D Digital", and the files sl1, t1i, t2i, t3, t3i, t5, t5i repeat aliases of other files. The later file wins.
19. A Minolta file with a block of length 0xfffffff8 is read for ever in release builds (C27_mrw_refuted); debug builds panic on the addition, which `decode_safe` catches.
20. A file cut short after `FUJIFILM` makes recognition panic (C28_fuji_refuted); `decode_safe` turns it into an error.
21. A Canon file with double lines and an odd number of samples in a line gives an image with more samples than its size says
    (C45_odd_refuted): 3 samples for 1 x 2 pixels. One of three components takes its size from the tags without comparing it
    with the JPEG (C45_size_tags_refuted): 6 samples for 5 x 7 pixels of three components. One whose JPEG has sampling
    factors 2 and 3 gives an image without rows and with samples (C45_no_rows_refuted).
22. Pentax and Nikon pictures of odd width never decode: the loops take pixels in pairs and the last index is out of range
    (C47_pentax_odd_refuted, C47_nikon_odd_refuted).
23. Nikon files "without loss" are not decoded without loss: the values go through the dithered table, which has 65536 points on the
    identity, so that 1000 becomes 999 or 1000 depending on the noise (C47_nikon_lossless_refuted).
24. Nikon's second code tables (indices 1 and 4) have leaves such as 57 that are meant as length and shift.  The tables are
    built without complaint, but a difference with such a leaf is read as if the leaf were a length, which panics in debug
    builds (C47_nikon_change_refuted).  What release builds give there is not examined.
25. Canon CRW pictures whose number of pixels is not a multiple of 64 never decode: the last block is written past the end
    of the buffer (C47_canon_short_refuted).
26. Olympus pictures of odd width are decoded with a black last column: pixels are taken in pairs (C47_olympus_odd_refuted).
27. Panasonic data in two parts: in group 512 of every block of 16384 bytes a value that lies across the boundary takes its
    upper bits from the first byte of the next block instead of the first byte of its own (C47_panasonic_split_refuted).
28. Panasonic data that end the file make the program panic: the last byte is read as part of a 16 bit number
    (C47_panasonic_end_refuted).
29. Samsung's first compression never gives a picture of odd height: the last step changes pixels with those of the row below
    the last one (C47_samsung1_odd_refuted).
30. Samsung's third compression never gives a picture whose width is not a multiple of sixteen (C47_samsung3_width_refuted).
    Its scale of differences is set to zero again for every group of pixels that does not start at a multiple of 64, so it
    only ever applies to one group in four; the round trip C47_samsung3 describes it that way.
31. Black levels of large masked areas are rounded: 257 samples of 65533 give the level 65532 (C50_rounding_refuted).
32. TIFF values of the types FLOAT, DOUBLE, SBYTE and ASCII panic where a number is wanted (C51_other_types_refuted), and so does a
    filter pattern with a colour other than red, green and blue (C51_pattern).
33. Small Canon pictures with a white balance level of 1 overflow: debug builds panic, release builds make bright red
    black (C52_overflow_refuted).
34. Big-endian DNGs with 16 bit samples come out with the bytes of every sample swapped: the samples are read lower byte first
    whatever the byte order of the file (C54_big_endian_refuted, C60_big_endian_refuted).
35. The scan of a Minolta header stops twenty bytes before the picture. A white balance block of just the 12 bytes it needs is lost when it is the last block: the white levels come out as 0 (C63_last_block_refuted).
36. A Kodak DCS or Nikon Coolpix file in which no picture is more than 1000 wide makes the decoder panic instead of returning an error, and so does a DNG in which every directory is a preview or has an unknown compression; and a Kodak EasyShare file with fewer than 13 places; the caller of `decode` only learns that there was a panic (C66_small_pictures_refuted, C66_previews_refuted, C66_few_places_refuted).
37. A Sony file whose hidden part does not turn into a directory (a wrong key, say, or damaged bytes, so that it begins with a count above 4000) makes the decoder panic instead of returning an error: the result of parsing it is unwrapped (C67_damaged_refuted). So does a hidden part that goes on after the end of the file (C67_cut_refuted).
38. A Nikon Coolpix file (camera with the hints `msb32` and `nowb`) that ends 16 bytes before the place where its picture should begin decodes to a black picture of the full size, without an error: the buffer has 16 bytes more than the file, and the layout's loop ends where the data end (C68_black_refuted).
