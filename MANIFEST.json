{
 "claims": [
  {
   "property": "C01",
   "status": "proved",
   "theorems": [
    "C01_size_validation",
    "C01_small_dimensions_sane"
   ],
   "note": "For the 17 formats of `formats` (BC1-BC5, BC7, ATC, ETC, EAC). Hypothesis `sane`: products fit in usize."
  },
  {
   "property": "C02",
   "status": "proved",
   "theorems": [
    "C02_pixel_placement"
   ],
   "note": "Pixels are stated through the block function on a fresh buffer; C06-C10 and C17-C24 state them through the format specifications."
  },
  {
   "property": "C03",
   "status": "proved",
   "theorems": [
    "C03_frame",
    "C03_ignores_trailing_data"
   ],
   "note": "Length, elements from w*h on, trailing data, untouched image on Err."
  },
  {
   "property": "C04",
   "status": "proved",
   "theorems": [
    "C04_locality"
   ],
   "note": "Same block bytes, same pixels, whatever the rest."
  },
  {
   "property": "C05",
   "status": "partial",
   "theorems": [
    "C05_oversized_rejected_partial",
    "C05_oversized_refuted",
    "C05_statement_refuted",
    "C05_sizes_code"
   ],
   "note": "False when the products of the size check exceed usize: both builds can panic (_refuted, all formats). Proved when they fit (_partial); the exact outcome for every width, height, data and image length is C05_sizes_code."
  },
  {
   "property": "C06",
   "status": "proved",
   "theorems": [
    "C06_bc1_block_exact",
    "C06_bc1_image_exact"
   ],
   "note": "Block and image level, both build modes."
  },
  {
   "property": "C07",
   "status": "proved",
   "theorems": [
    "C07_bc1a_block_exact",
    "C07_bc1a_image_exact",
    "C07_bc1a_differs_only_in_alpha_of_index3"
   ],
   "note": "Block and image level; third theorem compares the two specifications."
  },
  {
   "property": "C08",
   "status": "proved",
   "theorems": [
    "C08_bc2_block_exact",
    "C08_bc2_image_exact"
   ],
   "note": "Block and image level."
  },
  {
   "property": "C09",
   "status": "proved",
   "theorems": [
    "C09_bc3_block_exact",
    "C09_bc3_image_exact"
   ],
   "note": "Block and image level."
  },
  {
   "property": "C10",
   "status": "proved",
   "theorems": [
    "C10_bc4_image_exact",
    "C10_bc5_image_exact",
    "C10_bc4_block_channels",
    "C10_bc5_block_channels"
   ],
   "note": "Image level exact; block level: only the red (red, green) bytes of the output words change."
  },
  {
   "property": "C11",
   "status": "partial",
   "theorems": [
    "C11_bc6_confined",
    "C11_confined_partial",
    "C11_confined_refuted",
    "C11_statement_refuted",
    "C11_overrun_code"
   ],
   "note": "False for BC3, BC4, BC5 and ATC RGBA8 (_refuted; what they do instead: C11_overrun_code); proved for the other 13 formats (_partial)."
  },
  {
   "property": "C12",
   "status": "proved",
   "theorems": [
    "C12_bc7_block_exact",
    "C12_bc7_image_exact"
   ],
   "note": "Block and image level, all modes, against a specification with its own partition, anchor and weight tables."
  },
  {
   "property": "C13",
   "status": "proved",
   "theorems": [
    "C13_bc7_total",
    "C13_bc7_reserved_zero",
    "C13_bc7_mode_of_first_byte",
    "C13_bc7_opaque_modes"
   ],
   "note": "All 2^128 blocks, both builds."
  },
  {
   "property": "C14",
   "status": "partial",
   "theorems": [
    "C14_bc6_total_partial",
    "C14_mode15_panics_code",
    "C14_bc6_total_refuted"
   ],
   "note": "Mode 15 blocks panic with overflow checks (`1u16 << 16`): _refuted and _code; everything else (wrapping builds: all blocks; checked builds: all blocks of other modes) total, reserved modes zero, output past 16 words untouched (_partial)."
  },
  {
   "property": "C15",
   "status": "partial",
   "theorems": [
    "C15_bc6u_exact_partial",
    "C15_bc6u_code",
    "C15_bc6u_image_code",
    "C15_bc6u_exact_refuted",
    "C15_unquantise_top"
   ],
   "note": "The unquantisation recognises 2^(eb-1) instead of 2^eb-1 as the top of the scale (_refuted). Exact for every block without these two values and not in mode 15 (_partial); exact behaviour of the code for all blocks and for images in _code."
  },
  {
   "property": "C16",
   "status": "partial",
   "theorems": [
    "C16_bc6_half_to_byte",
    "C16_astc_half_to_byte_partial",
    "C16_astc_minus_infinity_code",
    "C16_astc_minus_infinity_refuted",
    "C16_half_byte_meaning",
    "C16_half_to_single_exact"
   ],
   "note": "False for minus infinity in the ASTC copy of the conversion: its own `floor` computes i32::MIN - 1, a panic with overflow checks and the byte 255 without (_refuted, _code). All other 65535 patterns there (_partial), all 65536 in bc6.rs; also exactness of half -> single."
  },
  {
   "property": "C17",
   "status": "partial",
   "theorems": [
    "C17_atc_rgb_partial",
    "C17_atc_rgb_code",
    "C17_atc_rgb_image_code",
    "C17_atc_rgb_refuted",
    "C17_statement_refuted"
   ],
   "note": "The darkened colour (mode bit set, index 1) deviates from max(0, c0 - c1/4): counterexample in _refuted; all other texels exact (_partial); exact behaviour of the code for all blocks in _code."
  },
  {
   "property": "C18",
   "status": "proved",
   "theorems": [
    "C18_atc_rgba_composes",
    "C18_atc_rgba_block_exact",
    "C18_atc_rgba_image_exact"
   ],
   "note": "Alpha composition, with the colour which the ATC RGB decoder gives (see C17)."
  },
  {
   "property": "C19",
   "status": "proved",
   "theorems": [
    "C19_etc1_block_exact",
    "C19_etc1_block_all",
    "C19_etc1_image_exact",
    "C19_etc1_valid_blocks_do_not_wrap"
   ],
   "note": "Exact for valid blocks; C19_etc1_block_all also covers overflowing blocks (second colour modulo 32)."
  },
  {
   "property": "C20",
   "status": "proved",
   "theorems": [
    "C20_etc2_rgb_block_exact",
    "C20_etc2_rgb_image_exact"
   ],
   "note": "All five modes, block and image level."
  },
  {
   "property": "C21",
   "status": "proved",
   "theorems": [
    "C21_etc2_extends_etc1"
   ],
   "note": "Equality of the two block functions on every valid ETC1 block, any output slice."
  },
  {
   "property": "C22",
   "status": "partial",
   "theorems": [
    "C22_etc2_rgba1_partial",
    "C22_etc2_rgba1_code",
    "C22_etc2_rgba1_image_code",
    "C22_opaque_is_rgb",
    "C22_etc2_rgba1_refuted",
    "C22_statement_refuted"
   ],
   "note": "Transparent texels keep their colour instead of being black (_refuted); alpha and every non-transparent texel exact (_partial); exact code behaviour in _code."
  },
  {
   "property": "C23",
   "status": "proved",
   "theorems": [
    "C23_etc2_rgba8_block_exact",
    "C23_etc2_rgba8_image_exact",
    "C23_etc2_rgba8_composes"
   ],
   "note": "Block and image level."
  },
  {
   "property": "C24",
   "status": "partial",
   "theorems": [
    "C24_eac_r_partial",
    "C24_eac_rg_partial",
    "C24_eac_r_code",
    "C24_eac_r_signed_code",
    "C24_eac_rg_code",
    "C24_eac_rg_signed_code",
    "C24_eac_r_image_code",
    "C24_eac_r_signed_image_code",
    "C24_eac_rg_image_code",
    "C24_eac_rg_signed_image_code",
    "C24_eac_r_refuted",
    "C24_statement_refuted"
   ],
   "note": "The code reads the 48 index bits from the byte-reversed block (_refuted); texels whose index is the same in both byte orders are exact, other channels always exact (_partial); exact behaviour of the code for all blocks in _code."
  },
  {
   "property": "C25",
   "status": "partial",
   "theorems": [
    "C25_pvrtc_code",
    "C25_pvrtc_size_validation_partial",
    "C25_pvrtc_short_4bpp_refuted",
    "C25_pvrtc_zero_size_refuted"
   ],
   "note": "4bpp data of 4 to 8 bytes per block passes the length test and panics; zero width or height panics in checked builds (_refuted). Exact classification of all inputs in _code; full claim for 2bpp with positive sizes (_partial)."
  },
  {
   "property": "C26",
   "status": "proved",
   "theorems": [
    "C26_pvrtc_address",
    "C26_pvrtc_address_bijection",
    "C26_pvrtc_address_bits"
   ],
   "note": "All power-of-two grids up to 2^62 blocks (the address then fits a usize)."
  },
  {
   "property": "C27",
   "status": "proved",
   "theorems": [
    "C27_pvrtc_decodes",
    "C27_pvrtc_channels_in_range",
    "C27_pvrtc_modulation_in_range"
   ],
   "note": "Both bit rates, both builds, all block contents; also that no channel needs truncation."
  },
  {
   "property": "C28",
   "status": "proved",
   "theorems": [
    "C28_pvrtc_4bpp_exact"
   ],
   "note": "All block contents, sizes with power-of-two block counts, both builds."
  },
  {
   "property": "C29",
   "status": "proved",
   "theorems": [
    "C29_validation",
    "C29_zero_side_code",
    "C29_footprints",
    "C29_placement",
    "C29_well_formed_image"
   ],
   "note": "Both builds, any block size (not only the exported ones). Ok exactly when each block decodes; for well-formed blocks the picture is that of the format (with the sign extension of C49)."
  },
  {
   "property": "C30",
   "status": "partial",
   "theorems": [
    "C30_no_panic_partial",
    "C30_many_weights_refuted",
    "C30_no_room_refuted",
    "C30_blocks_code",
    "C30_image_code"
   ],
   "note": "False: 120-weight grids overrun the weight buffer, blocks without room read past the data (_refuted, both builds), void-extent blocks with minus infinity panic with overflow checks (C31_minus_infinity_refuted). Proved for reserved, fitting and all other void-extent blocks (_partial). _code: for every block (and every file) of the exported footprints, exactly when it decodes, to which texels, and that it panics otherwise, per build mode; slices below 2^60 bytes."
  },
  {
   "property": "C31",
   "status": "partial",
   "theorems": [
    "C31_void_extent_partial",
    "C31_void_extent_code",
    "C31_minus_infinity_refuted"
   ],
   "note": "False for half-float colours with minus infinity (_refuted): panic with overflow checks, 255 instead of 0 without. All other blocks with the header, both builds (_partial); every block of them exactly in _code."
  },
  {
   "property": "C32",
   "status": "proved",
   "theorems": [
    "C32_integer_sequences",
    "C32_trit_codes",
    "C32_quint_codes"
   ],
   "note": "Forward and reversed sequences anywhere in the block; the digit codes cover all digit combinations."
  },
  {
   "property": "C33",
   "status": "proved",
   "theorems": [
    "C33_weights_in_range",
    "C33_unquantization_tables",
    "C33_weights_exact"
   ],
   "note": "Range for every block that decodes, also malformed ones; the level tables; exact infill for legal blocks."
  },
  {
   "property": "C34",
   "status": "proved",
   "theorems": [
    "C34_partition"
   ],
   "note": "All seeds, positions, counts and block sizes up to 144 texels."
  },
  {
   "property": "C35",
   "status": "proved",
   "theorems": [
    "C35_ldr_end_points"
   ],
   "note": "All ten LDR modes and all value tuples."
  },
  {
   "property": "C36",
   "status": "proved",
   "theorems": [
    "C36_peek",
    "C36_read",
    "C36_getbits",
    "C36_getbits64",
    "C36_getbits64_before_start",
    "C36_field_bits",
    "C36_reads_concatenate",
    "C36_past_end_panics",
    "C36_sixteen_bits"
   ],
   "note": "Fields up to 15 bits (reader), 30 bits (getbits), 64 bits (getbits64). C36_sixteen_bits: a 16-bit read panics or returns 0; no caller in the decoders proved so far asks for it, except BC6H (see C14)."
  },
  {
   "property": "C37",
   "status": "partial",
   "theorems": [
    "C37_header_exact_partial",
    "C37_header_code",
    "C37_header_refuted"
   ],
   "note": "A file ending inside its own level table panics (_refuted); exact otherwise (_partial); behaviour on every file in _code."
  },
  {
   "property": "C38",
   "status": "partial",
   "theorems": [
    "C38_bad_header_partial",
    "C38_short_header_code",
    "C38_panic_refuted",
    "C38_wild_offset_refuted",
    "C38_tables_code",
    "C38_no_code_code",
    "C38_cut_code"
   ],
   "note": "False: short headers, wild offsets and codes without code words panic (_refuted, _code). Files rejected by their header give Err and leave the image alone (_partial); every file cut short gives Err, or panics when cut inside its level table (_cut_code); a section of codes outside the file panics, an empty one gives Err (_tables_code). C71 bounds the damage from the other side: damaged level bytes alone never panic."
  },
  {
   "property": "C39",
   "status": "proved",
   "theorems": [
    "C39_huffman_inverse",
    "C39_symbol_any_state",
    "C39_prefix_free",
    "C39_code_length"
   ],
   "note": "All code lengths (1..8192 symbols, lengths 0..16, Kraft sum at most 1, also incomplete codes), all symbol sequences, any state of the bit buffer; codes are prefix free."
  },
  {
   "property": "C40",
   "status": "partial",
   "theorems": [
    "C40_reads_partial",
    "C40_raw_any_state",
    "C40_end_of_slice_refuted",
    "C40_reads_code"
   ],
   "note": "False: a symbol read after a raw read that took the last byte of the slice panics (_refuted); holds if 7 bits or a byte follow (_partial); exactly when it succeeds and when it panics in _code. Raw reads up to 32 bits from any state."
  },
  {
   "property": "C41",
   "status": "partial",
   "theorems": [
    "C41_level_exact_partial",
    "C41_faces_refuted",
    "C41_faces_fail",
    "C41_end_fail",
    "C41_level_code"
   ],
   "note": "The whole level, from the bytes of the file to the blocks in raster order, both build modes. C41_level_code: a written level unpacks if and only if it has one face or an even number of block rows, and no calculated position reaches 2^31 (level_end). The two missing cases never unpack, whatever the contents: C41_faces_fail, C41_end_fail; C41_faces_refuted: a valid file of the first kind panics."
  },
  {
   "property": "C42",
   "status": "proved",
   "theorems": [
    "C42_crunch_picture",
    "C42_unity_picture",
    "C42_errors",
    "C42_unsupported"
   ],
   "note": "For every file whose first level unpacks: picture of the block format (C06, C09, C10, C19, C20, C23), size of the unpacked data; errors leave the image untouched; unsupported formats are never decoded."
  },
  {
   "property": "C43",
   "status": "partial",
   "theorems": [
    "C43_unity_level_partial",
    "C43_odd_columns_fail",
    "C43_odd_columns_refuted",
    "C43_faces_refuted",
    "C43_faces_fail",
    "C43_unity_level_code"
   ],
   "note": "Exact classification of all levels of valid files in both builds (C43_unity_level_code): unpacked to the stored blocks if the block columns are even or the build has no overflow checks, there is one face or an even number of block rows, and a face is below 4 GiB; otherwise never. So the claim is false (C43_odd_columns_refuted, C43_faces_refuted); _fail theorems hold for arbitrary files."
  },
  {
   "property": "C44",
   "status": "proved",
   "theorems": [
    "C44_limit",
    "C44_crunch_indices",
    "C44_unity_indices"
   ],
   "note": "limit and Unity's subtraction, any delta sequence, palettes up to 2^30 entries (files have at most 65535)."
  },
  {
   "property": "C45",
   "status": "partial",
   "theorems": [
    "C45_bc6s_exact_partial",
    "C45_bc6s_code",
    "C45_bc6s_image_code",
    "C45_bc6s_exact_refuted"
   ],
   "note": "Negative end points are decoded wrongly (_refuted); exact when no end point in use is negative and mode is not 15 (_partial); exact behaviour of the code in _code."
  },
  {
   "property": "C46",
   "status": "proved",
   "theorems": [
    "C46_pvrtc_2bpp_exact"
   ],
   "note": "Same for 2bpp, including the three ways of filling modulation gaps across block borders."
  },
  {
   "property": "C47",
   "status": "partial",
   "theorems": [
    "C47_own_bytes_partial",
    "C47_next_blocks_refuted",
    "C47_own_bytes_code"
   ],
   "note": "False for malformed blocks, whose end points are read from the following blocks (_refuted); proved for well-formed ones (_partial). _code: a block depends on what follows exactly if its colours need bytes behind it that are there."
  },
  {
   "property": "C48",
   "status": "partial",
   "theorems": [
    "C48_block_texels_partial",
    "C48_block_texels_code",
    "C48_negative_delta_refuted",
    "C48_code_agrees"
   ],
   "note": "Negative deltas in HDR RGB modes come out wrong (_refuted), and so does minus infinity in void-extent blocks (C31); all other well-formed blocks exact (_partial); exact behaviour of the code in _code. Legality here means that the fields fit (at most 64 weights, 96 weight bits); the format's further limits (24 weight bits, 18 colour values, no dual plane with four partitions) are not demanded. C48_code_agrees: on well-formed blocks the description of the code (SpecAstcCode) is the one of the format."
  },
  {
   "property": "C49",
   "status": "partial",
   "theorems": [
    "C49_hdr_end_points_partial",
    "C49_end_points_code",
    "C49_negative_delta_refuted"
   ],
   "note": "Negative deltas of modes 11, 14, 15 are sign-extended to 16 bits only (_refuted); otherwise exact (_partial); exact code behaviour in _code."
  },
  {
   "property": "C50",
   "status": "proved",
   "theorems": [
    "C50_block_parameters",
    "C50_block_mode"
   ],
   "note": "Legal blocks field by field; the block mode table for every block."
  },
  {
   "property": "C51",
   "status": "proved",
   "theorems": [
    "C51_color_unquantization",
    "C51_color_levels"
   ],
   "note": "All 17 ranges."
  },
  {
   "property": "C52",
   "status": "partial",
   "theorems": [
    "C52_error_color_partial",
    "C52_illegal_refuted",
    "C52_illegal_code"
   ],
   "note": "Reserved modes give magenta (_partial); other illegal blocks are decoded as if legal (_refuted) or panic; _code: which and to what."
  },
  {
   "property": "C53",
   "status": "proved",
   "theorems": [
    "C53_ldr_interpolation",
    "C53_hdr_interpolation"
   ],
   "note": "LDR and HDR, both builds."
  },
  {
   "property": "C54",
   "status": "proved",
   "theorems": [
    "C54_codes_received"
   ],
   "note": "Any code, any transmission. Needs 7 more bits or one more byte after the last symbol (the reader looks ahead, see C40)."
  },
  {
   "property": "C55",
   "status": "proved",
   "theorems": [
    "C55_color_palette",
    "C55_alpha_palette"
   ],
   "note": "All four palettes."
  },
  {
   "property": "C56",
   "status": "partial",
   "theorems": [
    "C56_crunch_file_partial",
    "C56_faces_refuted",
    "C56_faces_fail",
    "C56_end_fail",
    "C56_crunch_file_code"
   ],
   "note": "From the bytes of the file to the pixels. C56_crunch_file_code: a written file decodes if and only if it has one face or an even number of block rows and no position reaches 2^31. The missing cases never decode: C56_faces_fail, C56_end_fail."
  },
  {
   "property": "C57",
   "status": "proved",
   "theorems": [
    "C57_unity_palettes"
   ],
   "note": "All formats and both builds."
  },
  {
   "property": "C58",
   "status": "partial",
   "theorems": [
    "C58_unity_file_partial",
    "C58_odd_columns_refuted",
    "C58_fail",
    "C58_unity_file_code"
   ],
   "note": "As C43: C58_unity_file_code says exactly which valid files decode, C58_unity_file_partial to which pixels; C58_odd_columns_refuted: a valid 4x4 file panics in builds with overflow checks."
  },
  {
   "property": "C59",
   "status": "proved",
   "theorems": [
    "C59_bcn_atc",
    "C59_bc6",
    "C59_etc_eac",
    "C59_pvrtc",
    "C59_astc",
    "C59_crunch",
    "C59_unity_crunch",
    "C59_huge_sizes"
   ],
   "note": "All 36 generic bindings. BC6 for builds without overflow checks (with them mode 15 panics, C14); ASTC pictures for well-formed blocks, and for any blocks whenever the call returns; crunch relative to the unpacked level (C42; C56/C58 give the level)."
  },
  {
   "property": "C60",
   "status": "partial",
   "theorems": [
    "C60_astc_code",
    "C60_astc_partial",
    "C60_astc_refuted"
   ],
   "note": "Refuted: unwrap_err() makes decode_astc panic exactly when decoding succeeds and return zeros when it fails (C60_astc_code, C60_astc_refuted). What holds: nothing is written behind the object and its size is right (C60_astc_partial)."
  },
  {
   "property": "C61",
   "status": "proved",
   "theorems": [
    "C61_bcn_atc",
    "C61_etc_eac",
    "C61_pvrtc",
    "C61_astc",
    "C61_crunch",
    "C61_python",
    "C61_blocks"
   ],
   "note": "All exported decoders, block functions and Python bindings, for all inputs. Relies on the sums modelled without overflow checks being small (DESIGN.md)."
  },
  {
   "property": "C62",
   "status": "proved",
   "theorems": [
    "C62_block_formats",
    "C62_pvrtc",
    "C62_astc",
    "C62_crunch",
    "C62_no_other_errors"
   ],
   "note": "All exported decoders, all inputs."
  },
  {
   "property": "C63",
   "status": "proved",
   "theorems": [
    "C63_crunch_level",
    "C63_crunch_file",
    "C63_unity_level",
    "C63_unity_file"
   ],
   "note": "Files as in C56/C58; levels that unpack."
  },
  {
   "property": "C64",
   "status": "proved",
   "theorems": [
    "C64_one_outcome",
    "C64_bc7_mode",
    "C64_pvrtc",
    "C64_pvrtc_range",
    "C64_get_bits",
    "C64_bit_count",
    "C64_receive",
    "C64_code_length",
    "C64_last_used",
    "C64_total_bits",
    "C64_counting"
   ],
   "note": "All loops of the source with a data-dependent condition; the PVRTC loop is also shown to hang in release builds beyond 2^63 blocks, which no picture has."
  },
  {
   "property": "C65",
   "status": "proved",
   "theorems": [
    "C65_crunch_sound",
    "C65_crunch_few",
    "C65_unity_sound",
    "C65_unity_few",
    "C65_head"
   ],
   "note": "All byte strings, not only files written by an encoder; the palettes are the same for all levels of a file. Unity palettes of formats with halves keep five bits for the modifier table, where a block has room for three: C65_head says when the head of a block is the one of the format, loose_head what happens otherwise (the surplus bits of the second table are mixed into the first one)."
  },
  {
   "property": "C66",
   "status": "proved",
   "theorems": [
    "C66_store_written",
    "C66_round_trip",
    "C66_decode",
    "C66_size",
    "C66_any_blocks"
   ],
   "note": "The encoder is SpecCrnStore.store. The two conditions of C66_round_trip are exactly those under which the code unpacks a level at all (C41). Palettes with more than 8192 entries are outside: a step between entries is one symbol, and a code has at most 8192 symbols."
  },
  {
   "property": "C67",
   "status": "proved",
   "theorems": [
    "C67_store_written",
    "C67_round_trip",
    "C67_decode",
    "C67_size",
    "C67_drawable",
    "C67_any_blocks"
   ],
   "note": "The encoder is SpecUnityStore.u_store. The three conditions of C67_round_trip are exactly those under which the code unpacks a level at all (C43). C67_any_blocks asks for at most 10^8 blocks, so that the file stays below 2^32 bytes. The modifier tables of the stored ETC colours have the three bits of the format; palettes with larger tables exist (C65) but are not written. Palettes with more than 8192 entries are outside: a step between entries is one symbol, and a code has at most 8192 symbols."
  },
  {
   "property": "C68",
   "status": "proved",
   "theorems": [
    "C68_clz",
    "C68_clz_ends"
   ],
   "note": "The function is private and dead code in the crate; the loop is modelled with the 32 rounds it can take."
  },
  {
   "property": "C69",
   "status": "proved",
   "theorems": [
    "C69_crunch",
    "C69_unity",
    "C69_never"
   ],
   "note": "\"Destination buffer size is too small.\" needs a level of exactly 2^32 bytes, so that it appears only without overflow checks and only for formats with blocks of 16 bytes. C62 has the part that an error leaves the image untouched."
  },
  {
   "property": "C70",
   "status": "proved",
   "theorems": [
    "C70_tables",
    "C70_kraft",
    "C70_symbol",
    "C70_every_word",
    "C70_no_symbol",
    "C70_no_code",
    "C70_decode"
   ],
   "note": "All code lengths the format can express, without Kraft's inequality. C70_no_code shows the one panic: a code without code words."
  },
  {
   "property": "C71",
   "status": "proved",
   "theorems": [
    "C71_level",
    "C71_complete",
    "C71_damaged",
    "C71_image",
    "C71_symbols_needed"
   ],
   "note": "For arbitrary level bytes; C71_damaged compares a good file with one changed below the given offset onwards. C71_symbols_needed: with a symbol beyond the palette the same unpacker panics. Files with several faces and an odd number of block rows, and positions beyond 2^31, never unpack (C41_level_code) and are excluded by unpackable."
  },
  {
   "property": "C72",
   "status": "proved",
   "theorems": [
    "C72_level",
    "C72_complete",
    "C72_damaged",
    "C72_image",
    "C72_symbols_needed"
   ],
   "note": "For arbitrary level bytes of any of the formats DXT1, DXT5 (all variants), DXN, DXT5A, ETC1, ETC2, ETC2A, ETC1S, ETC2AS; C72_damaged compares a good file with one changed from the given offset onwards. C72_symbols_needed: a selector symbol equal to the number of selectors panics. Odd numbers of block columns in a checked build and several faces with an odd number of block rows never unpack (C43_unity_level_code) and are excluded by u_unpackable."
  },
  {
   "property": "C73",
   "status": "proved",
   "theorems": [
    "C73_level",
    "C73_complete",
    "C73_image",
    "C73_symbols_needed"
   ],
   "note": "The bytes of the palettes behind their codes and those of the levels are arbitrary; C73_symbols_needed: with one selector symbol more the same unpacker panics (the index into the table of moves). Files with several faces and an odd number of block rows, and positions beyond 2^31, never unpack (C41_level_code) and are excluded by unpackable. The damage must leave a whole byte after each code, which is what the reader fetches ahead (starts_with)."
  },
  {
   "property": "C74",
   "status": "proved",
   "theorems": [
    "C74_level",
    "C74_complete",
    "C74_image",
    "C74_symbols_needed"
   ],
   "note": "The bytes of the palettes behind their codes and those of the levels are arbitrary. C74_symbols_needed: a file whose ETC colour code has the symbols 31 and 225 panics in a checked build and is unpacked in a wrapping one. Odd numbers of block columns in a checked build and several faces with an odd number of block rows never unpack (C43_unity_level_code) and are excluded by u_unpackable."
  },
  {
   "property": "C75",
   "status": "proved",
   "theorems": [
    "C75_parts",
    "C75_stacks",
    "C75_bc6",
    "C75_astc"
   ],
   "note": "BC6H in a checked build panics on mode 15 (C14), and ASTC blocks that are not well-formed read bytes of other blocks (C47); both are outside the claim. PVRTC is not a claim here: its texels are blended with the neighbouring blocks."
  },
  {
   "property": "C76",
   "status": "proved",
   "theorems": [
    "C76_bc1",
    "C76_bc1a",
    "C76_bc2",
    "C76_bc3",
    "C76_bc4",
    "C76_bc5",
    "C76_atc_rgb",
    "C76_atc_rgba",
    "C76_bc7_solid",
    "C76_astc_solid"
   ],
   "note": "The exact characterisation covers the eight formats whose blocks are end points and free indices; for BC7 and ASTC only the solid blocks are claimed. ETC, EAC, BC6H and PVRTC are not part of the claim."
  },
  {
   "property": "C77",
   "status": "proved",
   "theorems": [
    "C77_shift_4bpp",
    "C77_shift_2bpp",
    "C77_even_4bpp",
    "C77_even_2bpp"
   ],
   "note": "The move needs sides that are whole numbers of blocks, as the picture of a cut-off texture does not contain the pixels that would come in. The claim about equal end points holds for all sizes the decoder accepts."
  },
  {
   "property": "C78",
   "status": "proved",
   "theorems": [
    "C78_opaque",
    "C78_red",
    "C78_red_green",
    "C78_punched",
    "C78_bc2"
   ],
   "note": "Formats with full alpha (BC3, BC7, ATC RGBA, ETC2 RGBA8, ASTC, PVRTC) have nothing to claim here; BC6H gives zero words for reserved modes (C14)."
  },
  {
   "property": "C79",
   "status": "proved",
   "theorems": [
    "C79_bc1",
    "C79_bc1a",
    "C79_bc2",
    "C79_bc3",
    "C79_bc4",
    "C79_bc5",
    "C79_atc_rgb",
    "C79_atc_rgba"
   ],
   "note": "The relation compares the decoder with itself, so it does not fix the colours (C06-C10, C17, C18 do). Formats with partitions or sub-block flip bits (ETC, BC6H, BC7, ASTC) have no such byte shuffle in general."
  },
  {
   "property": "C80",
   "status": "proved",
   "theorems": [
    "C80_bc1",
    "C80_bc2",
    "C80_bc3",
    "C80_bc4",
    "C80_bc5",
    "C80_atc",
    "C80_bc7",
    "C80_pvrtc_4bpp",
    "C80_pvrtc_2bpp",
    "C80_black_needed"
   ],
   "note": "ASTC is C53. ETC adds modifiers to its base colours and has nothing to claim here."
  },
  {
   "property": "C81",
   "status": "proved",
   "theorems": [
    "C81_bc1",
    "C81_bc1a",
    "C81_bc2",
    "C81_bc3",
    "C81_bc4",
    "C81_bc5",
    "C81_atc_rgb",
    "C81_atc_rgba",
    "C81_etc1",
    "C81_etc2_rgb",
    "C81_etc2_rgba1",
    "C81_etc2_rgba8"
   ],
   "note": "The relation compares the decoder with itself, so it does not fix the colours (C06-C10, C17-C23 do). EAC R11/RG11 are left out: the code takes indices from the bytes of the base value (C24), so its indices cannot be permuted freely."
  },
  {
   "property": "C82",
   "status": "proved",
   "theorems": [
    "C82_bc1",
    "C82_bc1a",
    "C82_bc2",
    "C82_bc3",
    "C82_bc4",
    "C82_bc5",
    "C82_atc_rgb",
    "C82_atc_rgba",
    "C82_bc1_turned",
    "C82_bc1a_turned",
    "C82_bc2_turned",
    "C82_bc3_turned",
    "C82_bc4_turned",
    "C82_bc5_turned",
    "C82_atc_rgb_turned",
    "C82_atc_rgba_turned"
   ],
   "note": "Covers C79 and the BC/ATC part of C81 as special arrangements; the relation compares the decoder with itself, so it does not fix the colours (C06-C10, C17, C18 do). ETC, BC6, BC7 and ASTC blocks cannot be rearranged freely: their texels share sub-block, partition or anchor positions."
  },
  {
   "property": "C83",
   "status": "proved",
   "theorems": [
    "C83_etc1",
    "C83_etc2_rgb",
    "C83_etc2_rgba1",
    "C83_etc2_rgba8",
    "C83_etc1_valid"
   ],
   "note": "RGBA1 is stated for the code, which keeps the colour of transparent texels (C22); ETC1 for the code's treatment of overflowing second colours (C19). C83_etc1_valid: the contents of valid ETC1 blocks are contents of ETC2 blocks."
  },
  {
   "property": "C84",
   "status": "proved",
   "theorems": [
    "C84_bc7"
   ],
   "note": "The proof constructs the block: fields packed in the order of the mode, end points exchanged and indices complemented in the subsets whose anchor has a large index."
  },
  {
   "property": "C85",
   "status": "proved",
   "theorems": [
    "C85_shades",
    "C85_two_colours",
    "C85_two_opaque",
    "C85_two_greys"
   ],
   "note": "The proof constructs the block for each size, kind and number of bits: mode bits, colours in the order that avoids the blue contraction, weights in reverse. The converse does not hold and is not claimed: ASTC has many more block contents (partitions, two planes, coarser grids and ranges)."
  },
  {
   "property": "C86",
   "status": "proved",
   "theorems": [
    "C86_4bpp",
    "C86_4bpp_only",
    "C86_2bpp",
    "C86_2bpp_only"
   ],
   "note": "The proof builds each block from its colour words, mode bit and modulation digits and places it by the inverse of the interleaved numbering. Pictures with more than one pair are not covered: neighbouring blocks share their colours, so such pictures cannot be chosen block by block."
  },
  {
   "property": "C87",
   "status": "proved",
   "theorems": [
    "C87_unsigned_images",
    "C87_signed_images",
    "C87_mode15_panics_code",
    "C87_contents"
   ],
   "note": "The block decoder's own deviations from the format are in C15 and C45; the colours left out are those it gets wrong. The constructed data uses one mode only; C88 says exactly which pictures there are, over all modes."
  },
  {
   "property": "C88",
   "status": "proved",
   "theorems": [
    "C88_contents"
   ],
   "note": "The pictures are those of the code, not of the format: unq_unsigned_code, unq_signed_code and the second end point of mode 15 are the deviations found in C15 and C45."
  },
  {
   "property": "C89",
   "status": "proved",
   "theorems": [
    "C89_r11",
    "C89_r11_signed",
    "C89_rg11",
    "C89_rg11_signed",
    "C89_solid_code",
    "C89_solid_signed_code",
    "C89_solid_format"
   ],
   "note": "A consequence of the deviation of the code from the format found in C24 (choices read from the byte-reversed block): the description is of what the code shows, C89_solid_format says what the format has."
  }
 ]
}
