{"id": "C01", "title": "Exact size validation of the 4x4 image decoders", "statement": "Calling an image decoder of a 4x4 block format (BC1, BC1A, BC2-BC5, BC7, ATC, ETC1, ETC2, EAC) with B=8 or 16 bytes per block returns Err(\"Not enough data to decode image!\") exactly when data is shorter than ceil(w/4)*ceil(h/4)*B, otherwise Err(\"Image buffer is too small!\") exactly when the image slice is shorter than w*h, otherwise Ok(()); it never panics.", "quantifier": "all byte contents and lengths of data, all widths/heights whose products fit in usize, all image slices, every one of the listed formats", "why_tests_cant": "width, height, data length and block contents are unbounded; tests only decode a few sample textures of friendly size", "anchors": ["src/macros.rs: block_decoder!", "src/color.rs: copy_block_buffer", "src/bcn.rs: decode_bc*", "src/etc.rs", "src/atc.rs"]}
{"id": "C02", "title": "Every pixel comes from its own block", "statement": "When an image decoder returns Ok, pixel (x,y) with x<w, y<h (index y*w+x) equals texel (y mod 4)*4+(x mod 4) of the decode of block number (y/4)*ceil(w/4)+x/4, i.e. of the B bytes at offset B*block, including for clipped right and bottom edges.", "quantifier": "all images of any width/height, all pixels, all data, every 4x4 block format", "why_tests_cant": "needs every combination of width, height residues and block position; tests use a handful of images, mostly multiples of 4", "anchors": ["src/macros.rs: block_decoder!", "src/color.rs: copy_block_buffer"]}
{"id": "C03", "title": "Nothing else is written", "statement": "An image decoder never changes the length of the image slice or any element at index >= w*h, ignores data past the last block, and leaves the whole image untouched when it returns Err.", "quantifier": "all data, image slices and dimensions, every 4x4 block format", "why_tests_cant": "absence of a write over all inputs cannot be observed by finitely many runs", "anchors": ["src/macros.rs: block_decoder!", "src/color.rs: copy_block_buffer"]}
{"id": "C04", "title": "Decoding is local and independent of history", "statement": "Two calls whose data agree on the bytes of one block give the same pixels for that block, whatever the other blocks contain and whatever the image slice held before.", "quantifier": "all pairs of inputs agreeing on a block's bytes, all dimensions, every 4x4 block format (the decoder reuses one scratch buffer across blocks, which could leak state between blocks)", "why_tests_cant": "compares the decodings of two textures that differ in arbitrary places; a scratch value leaking from one block into the next needs a particular pair of neighbours", "anchors": ["src/macros.rs: block_decoder!", "src/color.rs: copy_block_buffer", "src/bcn/bc4.rs", "src/etc/eac.rs"]}
{"id": "C05", "title": "Oversized dimensions are rejected, not crashed on", "statement": "For every width and height, if the data cannot hold the image the decoder returns Err rather than panicking or wrapping around.", "quantifier": "all 64-bit widths and heights, both overflow-checking and wrapping builds", "why_tests_cant": "requires dimensions whose products exceed 2^64; tests use small sizes", "anchors": ["src/macros.rs: block_decoder!", "src/color.rs: copy_block_buffer"]}
{"id": "C06", "title": "BC1 block decoding is exact", "statement": "Decoding an 8-byte BC1 block writes, for each of the 16 texels, the opaque colour selected by its 2-bit index from the two RGB565 end points (bit-replicated to 8 bits) and, if endpoint0>endpoint1 as integers, the truncated 2:1 and 1:2 mixes, otherwise the truncated average and opaque black.", "quantifier": "all 2^64 blocks, every texel", "why_tests_cant": "a block has 2^64 values; an error in one channel expansion or in the comparison of equal end points shows for few of them", "anchors": ["src/bcn/bc1.rs: decode_bc1_block", "src/color.rs: rgb565_le, color"]}
{"id": "C07", "title": "BC1A punch-through alpha is exact", "statement": "decode_bc1a_block gives exactly the BC1 result except that index 3 of a block with endpoint0<=endpoint1 is fully transparent black; no other texel has alpha other than 255.", "quantifier": "all 2^64 blocks, every texel", "why_tests_cant": "a block has 2^64 values; only three-colour blocks with index 3 are transparent, and sample textures seldom have equal end points", "anchors": ["src/bcn/bc1.rs: decode_bc1a_block"]}
{"id": "C08", "title": "BC2 block decoding is exact", "statement": "A BC2 block decodes to the colour of its second 8 bytes read as BC1, with alpha = 17 * the texel's explicit 4-bit alpha taken from the first 8 bytes (low nibble first).", "quantifier": "all 2^128 blocks, every texel", "why_tests_cant": "a block has 2^128 values and the colour half reuses BC1, so an error for unordered end points need not occur in sample textures", "anchors": ["src/bcn/bc2.rs"]}
{"id": "C09", "title": "BC3 block decoding is exact", "statement": "A BC3 block decodes to the colour of its second 8 bytes read as BC1 with alpha interpolated from the first 8 bytes: 8-value ramp if a0>a1, otherwise 6-value ramp with 0 and 255, selected by the texel's 3-bit index.", "quantifier": "all 2^128 blocks, every texel", "why_tests_cant": "a block has 2^128 values; the three-bit indices straddle bytes and the six-value ramp is used only when the first end point is not the greater", "anchors": ["src/bcn/bc3.rs"]}
{"id": "C10", "title": "BC4 / BC5 channels are exact and isolated", "statement": "An image decoded as BC4 has red = the BC3-alpha interpolation of its block, green=blue=0, alpha=255 for every pixel; BC5 additionally has green from the second 8 bytes. Values of one channel never disturb another channel.", "quantifier": "all blocks, all texels, all images", "why_tests_cant": "2^64 or 2^128 blocks; that the second channel never disturbs the first one (the scratch buffer is reused) is about every pair of neighbouring blocks", "anchors": ["src/bcn/bc4.rs", "src/bcn/bc5.rs", "src/bcn/bc3.rs: decode_bc3_alpha"]}
{"id": "C11", "title": "A block decoder only touches its 16 texels", "statement": "Calling a public decode_*_block function with an output slice longer than 16 leaves the elements from index 16 on unchanged.", "quantifier": "all blocks, all output slices of length >= 16, all 4x4 block functions", "why_tests_cant": "a frame property over slices of every length; the library itself only passes slices of exactly 16 words", "anchors": ["src/bcn/bc3.rs: decode_bc3_alpha", "src/lib.rs doc"]}
{"id": "C12", "title": "BC7 block decoding is exact", "statement": "A BC7 block decodes to the texels prescribed by the BC7 format (mode, partition, rotation, index selection, end points with p-bits expanded to 8 bits, anchor indices, 64-weight interpolation) for all eight modes.", "quantifier": "all 2^128 blocks, every texel", "why_tests_cant": "2^128 blocks in 8 modes with 64 partitions and anchor positions each; sample textures use a few partitions", "anchors": ["src/bcn/bc7.rs", "src/bcn/consts.rs"]}
{"id": "C13", "title": "BC7 is total", "statement": "BC7 decoding of any 16 bytes never panics; the reserved mode (first byte 0) yields 16 zero texels; modes 0-3 are always opaque.", "quantifier": "all 2^128 blocks", "why_tests_cant": "2^128 blocks; a panic needs one bad combination of mode, partition and offset", "anchors": ["src/bcn/bc7.rs: decode_bc7_block"]}
{"id": "C14", "title": "BC6H is total", "statement": "BC6H decoding (signed or unsigned) of any 16 bytes never panics and reserved modes give 16 zero texels.", "quantifier": "all 2^128 blocks, both signednesses, overflow-checking and wrapping builds", "why_tests_cant": "2^128 blocks; the overflow needs one of the 14 modes, a checked build and no sample texture uses it", "anchors": ["src/bcn/bc6.rs"]}
{"id": "C15", "title": "BC6H unsigned decoding follows the format", "statement": "Unsigned BC6H: the decoded half-float channels equal the format's (endpoint extraction, delta transform, unquantization, interpolation, final scale) and are converted to 8 bit.", "quantifier": "all 2^128 blocks", "why_tests_cant": "2^128 blocks; the deviation needs one of two end point values per precision", "anchors": ["src/bcn/bc6.rs", "src/f16.rs"]}
{"id": "C16", "title": "Half-float to 8-bit conversion is exact", "statement": "The 8-bit value of a half-float channel is floor(255*v) clamped to 0..255 for every finite v, 0 for NaN and negatives, 255 for +inf.", "quantifier": "all 65536 half-float bit patterns", "why_tests_cant": "rounding inside f32 arithmetic must be exact for each pattern", "anchors": ["src/f16.rs: fp16_ieee_to_fp32_value", "src/bcn/bc6.rs: f16_to_u8", "src/astc.rs"]}
{"id": "C17", "title": "ATC RGB decoding is exact", "statement": "An ATC RGB block decodes to the four-colour palette of the AMD extension: with the mode bit clear, 5:3 and 3:5 mixes of the RGB555 and RGB565 end points; with the mode bit set, black, max(0, c0 - c1/4) darkened colour, c0 and c1.", "quantifier": "all 2^64 blocks, every texel", "why_tests_cant": "a block has 2^64 values; the darkened colour is used only with the mode bit set and index 1", "anchors": ["src/atc.rs: decode_atc_rgb4_block"]}
{"id": "C18", "title": "ATC RGBA decoding composes colour and alpha", "statement": "An ATC RGBA8 block decodes to the ATC RGB colour of its second half with the interpolated (BC3 style) alpha of its first half.", "quantifier": "all 2^128 blocks", "why_tests_cant": "a block has 2^128 values in two halves decoded by different functions into the same words", "anchors": ["src/atc.rs: decode_atc_rgba8_block"]}
{"id": "C19", "title": "ETC1 block decoding is exact", "statement": "A valid ETC1 block decodes to clamp(base colour of the texel's sub-block + modifier(table, index)) with sub-block layout chosen by the flip bit, in individual (4-bit) or differential (5+3-bit) mode.", "quantifier": "all 2^64 blocks whose differential colours do not overflow, every texel", "why_tests_cant": "a block has 2^64 values: two modes, two orientations, eight modifier tables and clamping at both ends", "anchors": ["src/etc/etc1.rs"]}
{"id": "C20", "title": "ETC2 RGB block decoding is exact", "statement": "An ETC2 RGB block decodes per the ETC2 specification: individual, differential, T, H (chosen by red/green overflow) or planar (blue overflow) mode.", "quantifier": "all 2^64 blocks, every texel", "why_tests_cant": "2^64 blocks in five modes with interleaved bit layouts; T, H and planar blocks are selected by overflow of a sum and are rare in sample textures", "anchors": ["src/etc/etc2.rs: decode_etc2_rgb_block"]}
{"id": "C21", "title": "ETC2 is backward compatible with ETC1", "statement": "Every block that is a valid ETC1 block decodes identically by the ETC1 and ETC2 RGB decoders.", "quantifier": "all 2^64 blocks without differential overflow", "why_tests_cant": "relates two decoders over all 2^64 blocks without overflow", "anchors": ["src/etc/etc1.rs", "src/etc/etc2.rs"]}
{"id": "C22", "title": "ETC2 punch-through alpha is exact", "statement": "An ETC2 RGBA1 block with the opaque bit set decodes like the differential/T/H/planar RGB block; with it clear, texels with index 2 are transparent black and others are opaque, with modifiers 0 for the small positions.", "quantifier": "all 2^64 blocks", "why_tests_cant": "2^64 blocks; transparent texels look right when composited over black, so a picture test does not see their colour", "anchors": ["src/etc/etc2.rs: decode_etc2_rgba1_block"]}
{"id": "C23", "title": "ETC2 RGBA8 alpha is exact", "statement": "An ETC2 RGBA8 block decodes to the ETC2 RGB colour of its second half with alpha = clamp(base + modifier*multiplier) of its first half, per EAC.", "quantifier": "all 2^128 blocks", "why_tests_cant": "2^128 blocks; 16 modifier rows times 16 multipliers, clamped at both ends", "anchors": ["src/etc/etc2.rs: decode_etc2_rgba8_block"]}
{"id": "C24", "title": "EAC R11/RG11 decoding follows the specification", "statement": "The red (and green) channel of an EAC block is the 11-bit value base*8+4+modifier*multiplier*8 clamped to 0..2047 and divided by 8 (signed variant: base as a signed byte, base*8+modifier*multiplier*8 clamped to -1023..1023, shifted up by 1023 and divided by 8; multiplier 0 counts as 1/8), with the 3-bit indices read most significant first from bytes 2..7; the other colour channels are 0 and alpha is 255.", "quantifier": "all 2^64 blocks per channel", "why_tests_cant": "2^64 blocks per channel; reading the indices in the wrong byte order still gives plausible pictures", "anchors": ["src/etc/eac.rs"]}
{"id": "C25", "title": "PVRTC size validation", "statement": "decode_pvrtc(_2bpp/_4bpp) returns Err whenever data holds fewer than 8 bytes per block, and never panics.", "quantifier": "all data lengths, all dimensions, both modes, both overflow builds", "why_tests_cant": "all lengths and dimensions up to 2^64; the accepted but too short 4bpp data needs a length between 4 and 8 bytes per block", "anchors": ["src/pvrtc.rs: decode_pvrtc"]}
{"id": "C26", "title": "PVRTC block addressing is a bijection", "statement": "For power-of-two block counts, the Morton-order address maps block coordinates one-to-one onto 0..nbx*nby-1, so each block is read exactly once.", "quantifier": "all power-of-two block grids, all coordinates", "why_tests_cant": "grids of unbounded size, also not square ones; a sample texture has one size", "anchors": ["src/pvrtc.rs: morton_index"]}
{"id": "C27", "title": "PVRTC decodes every pixel without panicking", "statement": "For power-of-two sized textures with at least 8 bytes per block and an image slice of w*h, PVRTC decoding returns Ok and writes every pixel with in-range channels.", "quantifier": "all block contents, all power-of-two sizes, both bit rates", "why_tests_cant": "all contents of the blocks and neighbours; intermediate weights could underflow", "anchors": ["src/pvrtc.rs"]}
{"id": "C28", "title": "PVRTC 4bpp colours are exact", "statement": "Each 4bpp PVRTC pixel equals the modulation blend of the bilinearly upscaled A and B colours of the four surrounding blocks (with wrap-around), including punch-through.", "quantifier": "all block contents, all pixels, all power-of-two sizes", "why_tests_cant": "each pixel depends on the contents of up to nine blocks and on the wrap-around at the borders, for grids of every size", "anchors": ["src/pvrtc.rs"]}
{"id": "C29", "title": "ASTC image decoding: validation and placement", "statement": "For every block size up to 144 texels, decode_astc validates data length, image length and block area in that order, and on Ok pixel (x,y) is texel of block (y/bh, x/bw); other image elements are unchanged.", "quantifier": "all dimensions, block sizes, data whose blocks decode", "why_tests_cant": "unbounded dimensions and 14 footprints; blocks cut off at the right and lower border occur only for certain sizes", "anchors": ["src/astc.rs: decode_astc"]}
{"id": "C30", "title": "ASTC never panics on malformed blocks", "statement": "Decoding any 16-byte ASTC block returns normally for each legal block size.", "quantifier": "all 2^128 blocks, all footprints", "why_tests_cant": "2^128 blocks times the footprints; encoders do not write malformed blocks", "anchors": ["src/astc.rs: decode_astc_block"]}
{"id": "C31", "title": "ASTC void-extent blocks are exact", "statement": "A void-extent LDR block fills every texel with the high bytes of its four 16-bit channel values; an HDR one with the half-float conversion of them.", "quantifier": "all 2^128 blocks with the void-extent header, all block sizes", "why_tests_cant": "2^128 blocks; the deviating half-float (minus infinity) is not in sample textures", "anchors": ["src/astc.rs: decode_astc_block"]}
{"id": "C32", "title": "ASTC bounded integer sequence decoding is exact", "statement": "Trit- and quint-packed integer sequences decode as specified: five trits per 8 bits and three quints per 7 bits, each with its n extra bits, for any starting bit position.", "quantifier": "all bit strings, all ranges, all sequence lengths", "why_tests_cant": "sequences of any length and 21 ranges packed in trits and quints; a wrong table entry shows for few digit groups", "anchors": ["src/astc.rs: decode_intseq"]}
{"id": "C33", "title": "ASTC weights stay in range", "statement": "Every unquantized and infilled (bilinearly interpolated) weight of a decoded block lies in 0..64, and single/dual plane weights of legal ranges match the specification's unquantization tables.", "quantifier": "all blocks, all grids, all ranges", "why_tests_cant": "2^128 blocks times footprints; the infill sums products of bilinear factors that could exceed 64 for few grids", "anchors": ["src/astc.rs: decode_weights, unquantize_weights"]}
{"id": "C34", "title": "ASTC partition function is exact and in range", "statement": "The partition index of each texel equals the specification's hash-based function and is always less than the partition count.", "quantifier": "all seeds, texel positions, partition counts, block sizes", "why_tests_cant": "1024 seeds times partition counts times texels times footprints, in wrapping 32-bit arithmetic; textures use few seeds", "anchors": ["src/astc.rs: select_partition"]}
{"id": "C35", "title": "ASTC LDR endpoint decoding follows the specification", "statement": "LDR colour endpoint modes (luminance, luminance-alpha, RGB scale, RGB, RGBA, direct and base+offset incl. blue contraction) produce the specified 8-bit end points.", "quantifier": "all unquantized end point values", "why_tests_cant": "up to 2^64 tuples of values; the swap to blue contraction depends on comparing sums", "anchors": ["src/astc.rs: decode_endpoints"]}
{"id": "C36", "title": "Bit reader returns the requested bits", "statement": "Reading n bits at bit offset p from a byte slice returns the little-endian bit field [p,p+n); sequential reads concatenate; reads past the end panic instead of returning garbage.", "quantifier": "all byte slices, offsets and lengths in range", "why_tests_cant": "slices of any length and every bit offset; the reads cross byte borders in all ways", "anchors": ["src/bitreader.rs"]}
{"id": "C37", "title": "Crunch header parsing is exact and bounded", "statement": "Texture info parsing of a .crn buffer succeeds exactly for buffers carrying the signature and consistent sizes, and reports big-endian header fields; it never reads out of bounds.", "quantifier": "all byte buffers", "why_tests_cant": "buffers of any length; the tests parse one well-formed header", "anchors": ["src/crunch/crn_decomp.rs: crnd_get_header", "src/crnlib.rs"]}
{"id": "C38", "title": "Crunch rejects truncated or corrupt files with Err", "statement": "decode_crunch and decode_unity_crunch return Err, never panic, on arbitrary bytes.", "quantifier": "all byte buffers, all dimensions", "why_tests_cant": "buffers of any length and contents; the tests contain no damaged file", "anchors": ["src/crunch.rs", "src/unitycrunch.rs", "src/crunch/crn_symbol_codec.rs"]}
{"id": "C39", "title": "Huffman decoding inverts canonical encoding", "statement": "For every list of code lengths (1..16) satisfying Kraft's inequality, a bit stream made by concatenating the canonical codes of any symbol sequence decodes to that symbol sequence.", "quantifier": "all code-length lists, all symbol sequences, all bit buffer fill states", "why_tests_cant": "alphabets, code lengths and streams are unbounded; long codes take another path than table look-ups and are rare", "anchors": ["src/crunch/crn_static_huffman_data_model.rs", "src/crunch/crn_symbol_codec.rs: decode"]}
{"id": "C40", "title": "Crunch bit extraction is exact", "statement": "Reading n<=16 raw bits from the compressed stream returns the next n bits most significant first, for any interleaving with Huffman symbol reads.", "quantifier": "all streams and read sequences", "why_tests_cant": "streams and interleavings of any length; the failing one ends exactly with the slice", "anchors": ["src/crunch/crn_symbol_codec.rs: decode_bits, get_bits"]}
{"id": "C41", "title": "Crunch level unpacking writes each block once and in place", "statement": "Unpacking a level writes exactly the bytes of the ceil(w/4) x ceil(h/4) blocks (serpentine chunk order, skipping the padding column/row) and never out of bounds of the output.", "quantifier": "all dimensions, all symbol streams whose palette indices are in range", "why_tests_cant": "levels of any size; the serpentine order and the padding differ for each parity of the block counts", "anchors": ["src/crunch/crn_unpacker.rs: unpack_dxt1, unpack_dxt5, unpack_dxt5a, unpack_dxn"]}
{"id": "C42", "title": "Crunch texture decoding equals block decoding of the unpacked level", "statement": "decode_crunch(data,w,h) gives exactly the image of the BCn decoder selected by the file's format applied to the unpacked blocks; unsupported formats give Err.", "quantifier": "all files, all dimensions", "why_tests_cant": "files and sizes are unbounded; relates the result of the whole decoder to a second decoding", "anchors": ["src/crunch.rs", "src/unitycrunch.rs"]}
{"id": "C43", "title": "Unity Crunch handles every texture width", "statement": "Unity-crunched level unpacking works for odd as well as even numbers of block columns, in every build mode.", "quantifier": "all widths", "why_tests_cant": "tests use power-of-two textures only, which have even block counts", "anchors": ["src/unitycrunch/crn_unpacker.rs: unpack_dxt1 etc."]}
{"id": "C44", "title": "Palette indices stay within the palette", "statement": "After each delta update the running end point/selector index is again a valid palette index provided the decoded delta is smaller than the palette size.", "quantifier": "all palettes, all delta sequences", "why_tests_cant": "sequences of moves of any length; an index leaves the palette only after particular moves", "anchors": ["src/crunch/crn_utils.rs: limit", "src/crunch/crn_unpacker.rs", "src/unitycrunch/crn_unpacker.rs"]}
{"id": "C45", "title": "BC6H signed decoding follows the format", "statement": "Signed BC6H: the decoded half-float channels equal the format's (sign-extended end points, delta transform, signed unquantization, interpolation, final scale) and are converted to 8 bit.", "quantifier": "all 2^128 blocks", "why_tests_cant": "2^128 blocks; negative end points are rare in sample textures", "anchors": ["src/bcn/bc6.rs: unquantize, finish_unquantize, decode_bc6_block_signed"]}
{"id": "C46", "title": "PVRTC 2bpp colours are exact", "statement": "Each 2bpp PVRTC pixel equals the modulation blend of the bilinearly upscaled A and B colours of the surrounding blocks (with wrap-around), where missing modulation values are filled from the two horizontal, two vertical or four neighbours as the block says, across block borders and with wrap-around.", "quantifier": "all block contents, all pixels, all power-of-two sizes", "why_tests_cant": "each pixel averages modulation values of neighbours across blocks and borders, for grids of every size", "anchors": ["src/pvrtc.rs: get_texel_weights_2bpp, applicate_color_2bpp"]}
{"id": "C47", "title": "ASTC blocks are decoded from their own 16 bytes", "statement": "The texels of a block depend only on the 16 bytes of that block, whatever follows in the data.", "quantifier": "all blocks, all following data, all footprints", "why_tests_cant": "2^128 blocks times arbitrary following data; only malformed blocks read on", "anchors": ["src/astc.rs: decode_astc_block, decode_endpoints"]}
{"id": "C48", "title": "ASTC block decoding is exact", "statement": "Every texel of a void-extent, reserved or legal block equals the value given by the format: weight grid infill, partition, end points, interpolation, planes.", "quantifier": "all 2^128 blocks that are well formed, all footprints", "why_tests_cant": "2^128 blocks times footprints; sample textures use few of the block modes, partitions and end point modes", "anchors": ["src/astc.rs: decode_astc_block, applicate_color"]}
{"id": "C49", "title": "ASTC HDR endpoint decoding follows the specification", "statement": "HDR colour endpoint modes 2, 3, 7, 11, 14, 15 produce the specified 12-bit end points.", "quantifier": "all unquantized end point values", "why_tests_cant": "up to 2^64 tuples of values; the deviation needs a negative delta in an HDR mode", "anchors": ["src/astc.rs: decode_endpoints_hdr7, decode_endpoints_hdr11, decode_endpoints"]}
{"id": "C50", "title": "ASTC block parameters follow the block mode table", "statement": "Grid size, planes, weight range, partition count, colour modes, plane selector and the colour range are those of the format for every legal block.", "quantifier": "all legal blocks", "why_tests_cant": "2^128 blocks; 2048 block modes, of which sample textures use a few", "anchors": ["src/astc.rs: decode_block_params"]}
{"id": "C51", "title": "ASTC colour unquantization is exact", "statement": "Every colour code of every colour range unquantizes to the specified byte; distinct codes give distinct bytes, including 0 and 255.", "quantifier": "all 17 ranges, all codes", "why_tests_cant": "17 ranges with bit-shuffled products; a wrong constant shows only for blocks with that range", "anchors": ["src/astc.rs: decode_endpoints"]}
{"id": "C52", "title": "ASTC illegal blocks give the error colour", "statement": "Blocks that are illegal (reserved mode or fields that do not fit) decode to opaque magenta.", "quantifier": "all illegal blocks, all footprints", "why_tests_cant": "2^128 blocks; encoders do not write illegal ones", "anchors": ["src/astc.rs: decode_astc_block"]}
{"id": "C53", "title": "ASTC interpolation stays between the end points", "statement": "The interpolated LDR byte is the rounded 16-bit interpolation, hits the end points at weights 0 and 64 and lies between them; the HDR one is the byte of the interpolated logarithmic code.", "quantifier": "all end points and weights", "why_tests_cant": "2^24 * 65 combinations for HDR, in 64-bit arithmetic that must not wrap", "anchors": ["src/astc.rs: select_color, select_color_hdr"]}
{"id": "C54", "title": "Crunch code lengths are received exactly", "statement": "For every code (up to 8192 symbols, Kraft's inequality) and every way of transmitting its code lengths (lengths, short and long runs of zeros, short and long repetitions), reading the transmission gives the canonical code, and every symbol sequence following it is decoded (provided the reader has 7 bits or one byte to look ahead at the end).", "quantifier": "all codes, all transmissions, all symbol sequences", "why_tests_cant": "unbounded alphabets, run-length choices and sequences", "anchors": ["src/crunch/crn_symbol_codec.rs: decode_receive_static_data_model"]}
{"id": "C55", "title": "Crunch palettes are reconstructed exactly", "statement": "The colour and alpha end points and selectors of a file are the running sums (modulo 32, 64, 256, 4, 8) of the transmitted moves, packed as 565 colours, bytes, 2-bit and 3-bit selectors in the order of the block formats.", "quantifier": "all palette sizes, all sequences of moves, all codes", "why_tests_cant": "palettes and moves are unbounded; each move depends on all the previous ones", "anchors": ["src/crunch/crn_unpacker.rs: decode_color_endpoints, decode_color_selectors, decode_alpha_endpoints, decode_alpha_selectors"]}
{"id": "C56", "title": "A crunch file decodes to the picture it stores", "statement": "For every complete crunch file (header, codes, palettes, level data) decode_crunch with the file's dimensions succeeds, and pixel (x,y) is texel (x mod 4, y mod 4) of the block at (x/4, y/4) given by the file's symbols; the rest of the image is unchanged.", "quantifier": "all files, formats DXT1, DXT5 family, DXN, DXT5A", "why_tests_cant": "files of any size; everything from header to pixels has to fit together for each format and size", "anchors": ["src/crunch.rs: decode_crunch", "src/crunch/crn_unpacker.rs", "src/crunch/crn_symbol_codec.rs"]}
{"id": "C57", "title": "Unity crunch palettes are reconstructed exactly", "statement": "The palettes of a Unity-variant crunch file (DXT, DXN, ETC1, ETC2, ETC2A, ETC1S, ETC2AS) are exactly the stored ones: end points are running sums (mod 32/64/256), selectors running exclusive-ors of the transmitted symbols, mapped and packed in the bit order of the block format, in both orientations for formats with half blocks.", "quantifier": "all palette sizes, all sequences of moves, all codes, all formats", "why_tests_cant": "unbounded sequences; ETC formats are hardly covered by sample textures", "anchors": ["src/unitycrunch/crn_unpacker.rs: decode_color_endpoints, decode_color_selectors, decode_alpha_endpoints, decode_alpha_selectors, decode_alpha_selectors_etc, decode_alpha_selectors_etcs"]}
{"id": "C58", "title": "A Unity crunch file decodes to the picture it stores", "statement": "For every complete Unity-variant crunch file decode_unity_crunch with the file's dimensions succeeds, and pixel (x,y) is texel (x mod 4, y mod 4) of the block at (x/4, y/4) given by the file's symbols; the rest of the image is unchanged.", "quantifier": "all files, all formats, all build modes", "why_tests_cant": "files of any size; the sample textures have power-of-two sizes and so even numbers of block columns", "anchors": ["src/unitycrunch.rs: decode_unity_crunch", "src/unitycrunch/crn_unpacker.rs"]}
{"id": "C59", "title": "Python bindings return exactly the picture's bytes and never write behind the bytes object", "statement": "The generic Python bindings (pybind!) view the new bytes object of w*h*4 bytes as a u32 slice of four times its size. Still, for every bound decoder: the returned object has 4*w*h bytes, bytes 4*(y*w+x)..+3 are pixel (x,y) low byte first, too little data raises ValueError with the decoder's message, and the memory covered by the slice behind the object is unchanged. Sizes whose byte count overflows usize raise (or panic with overflow checks) for the 17 4x4 formats.", "quantifier": "all data, all widths and heights with 16*w*h < 2^63 (and, for the overflow claim, all beyond), all contents of the memory behind the object, all bound decoders", "why_tests_cant": "the transmuted slice is longer than the object, so an out-of-bounds write would not be noticed by bounds checks; sizes are unbounded", "anchors": ["bindings/python/src/lib.rs: pybind!", "src/lib.rs"]}
{"id": "C60", "title": "Python decode_astc returns the picture or raises", "statement": "The custom binding decode_astc(data, width, height, block_width, block_height) returns the picture's bytes for well-formed blocks and raises an exception when there is not enough data.", "quantifier": "all data, sizes and block sizes", "why_tests_cant": "the tests only call the fixed-footprint bindings; sizes and data are unbounded", "anchors": ["bindings/python/src/lib.rs: decode_astc"]}
{"id": "C61", "title": "Release and debug builds agree", "statement": "Whatever a build with overflow checks returns for some data, sizes and image - an image, or an error - a build without overflow checks returns the same; and where the build without checks panics, the other does too. This holds for every decoder, the block functions and the Python bindings.", "quantifier": "all byte slices, sizes (u64), images, for every exported function", "why_tests_cant": "tests run one build profile on a few files; the claim compares two builds on every input, including malformed ones", "anchors": ["src/lib.rs", "src/macros.rs: block_decoder!", "src/astc.rs: decode_astc", "src/pvrtc.rs: decode_pvrtc", "src/crunch.rs: decode_crunch", "src/unitycrunch.rs: decode_unity_crunch", "bindings/python/src/lib.rs"]}
{"id": "C62", "title": "A reported error leaves the image untouched", "statement": "If a decoder returns Err, every pixel of the image buffer is what it was before the call, and (crunch apart) the message is one of the size messages of that decoder - also for sizes whose products overflow and for arbitrary data.", "quantifier": "all byte slices, sizes (u64), images, build modes, for every exported decoder", "why_tests_cant": "error paths depend on sizes and on arbitrary malformed files; tests exercise a handful of them", "anchors": ["src/macros.rs: block_decoder!", "src/astc.rs: decode_astc", "src/pvrtc.rs: decode_pvrtc", "src/crunch.rs: decode_crunch", "src/unitycrunch.rs: decode_unity_crunch"]}
{"id": "C63", "title": "Bytes behind the end of a crunch file do not matter", "statement": "Appending any bytes to a crunch or Unity crunch file that can be decoded changes neither its unpacked levels nor the decoded picture.", "quantifier": "all files that store a picture, all levels, all appended bytes, all images and requested sizes, both builds", "why_tests_cant": "files and appended bytes are unbounded; the last level is delimited by the end of the data, so appended bytes become part of its bit stream", "anchors": ["src/crunch/crn_unpacker.rs: crnd_unpack_level", "src/unitycrunch/crn_unpacker.rs: crnd_unpack_level", "src/crunch/crn_symbol_codec.rs"]}
{"id": "C64", "title": "Every loop ends", "statement": "Every `while` and `loop` of the decoders comes to an end on every input, malformed files included, and its outcome is that of the bounded loop of the model. A bit buffer never holds fewer than 0 or more than 32 bits, whatever was read from whatever bytes with whatever Huffman models.", "quantifier": "all bytes, all sequences of reads, all code sizes, all picture sizes that fit a usize, all counts, both builds", "why_tests_cant": "a hang shows only on the one input that causes it; the states of the reader after arbitrary reads are unbounded in number", "anchors": ["src/bcn/bc7.rs: decode_bc7_block", "src/pvrtc.rs: morton_index", "src/crunch/crn_symbol_codec.rs: get_bits, decode, decode_receive_static_data_model", "src/crunch/crn_static_huffman_data_model.rs: init", "src/crunch/crn_utils.rs: total_bits", "src/unitycrunch/crn_unpacker.rs", "src/astc.rs: decode_intseq"]}
{"id": "C65", "title": "Whatever a crunch or Unity crunch file contains, an unpacked level uses existing palette entries only", "statement": "For arbitrary bytes: if a level of a crunch file is unpacked, its data are exactly the blocks of the announced picture, face by face and row by row, and every block is made of end points and selectors that exist in palettes of the sizes the header announces, with one of the eight cuts per chunk. The same holds for Unity crunch files, where a block of the ETC formats with halves is made of two existing colours of five bits per component, an existing selector in the version for the way of halving and, with alpha, an existing end point and selector in the same version. No byte is left over, stems from outside the palettes or from another place.", "quantifier": "all byte strings, all levels, both builds", "why_tests_cant": "malformed files are unbounded; a wrong index would show only for the symbol sequence reaching it", "anchors": ["src/crunch/crn_unpacker.rs: unpack_dxt1, unpack_dxt5, unpack_dxt5a, unpack_dxn, limit", "src/crunch/crn_symbol_codec.rs: decode", "src/unitycrunch/crn_unpacker.rs: unpack_dxt1, unpack_dxt5, unpack_dxt5a, unpack_dxn, unpack_etc1, unpack_etc2a, decode_color_endpoints, decode_color_selectors, decode_alpha_selectors_etc"]}
{"id": "C66", "title": "Every picture that fits palettes of at most 8192 entries can be stored in a crunch file that unpacks and decodes to it", "statement": "For every supported format, palettes of at most 8192 end points and selectors, sizes, numbers of faces and of mip levels, and for every picture whose chunks use existing entries and one of the eight cuts, there is a file, given explicitly, that is a file of the format (C41, C54) and of which every level unpacks to exactly the blocks of the picture, provided the level has one face or an even number of block rows and no position reaches 2^31; otherwise it is not unpacked. Decoding the file gives the texels of the blocks drawn. The file takes at most 28 bytes per chunk and 600 kB besides. In particular any blocks at all can be unpacked from some file, if they use at most 8192 different end points and selectors per palette.", "quantifier": "all formats, palettes, sizes, faces, levels and pictures; both builds", "why_tests_cant": "a picture that cannot be reached by any file would not be noticed by tests of files; the set of pictures is unbounded", "anchors": ["src/crunch/crn_unpacker.rs", "src/crunch/crn_symbol_codec.rs", "src/crunch/crn_static_huffman_data_model.rs", "src/crunch/crn_decomp.rs", "src/crunch.rs"]}
{"id": "C67", "title": "Every picture that fits palettes of at most 8192 entries can be stored in a Unity crunch file that unpacks and decodes to it", "statement": "For every supported format (DXT1, DXT5 and its variants, DXN, DXT5A, ETC1, ETC2, ETC2A, ETC1S, ETC2AS), palettes of at most 8192 entries given by their components, sizes, numbers of faces and mip levels, and every picture whose blocks use existing entries (with halves: two end points, a way of halving and a selector), there is a file, given explicitly, that is a file of the format (C43, C57) and of which every level unpacks to exactly the blocks of the picture, provided the build wraps or the level has an even number of block columns, it has one face or an even number of block rows, and one face takes less than 2^32 bytes; otherwise the level is never unpacked. Decoding the file gives the texels of the blocks drawn. The file takes at most 10 bytes per block (columns and rows rounded up to even numbers) and 400 kB besides. The blocks that can be drawn are exactly the ones C65 allows for these palettes, so any such blocks in any order can be unpacked from some file.", "quantifier": "all formats, palettes, sizes, faces, levels and pictures; both builds", "why_tests_cant": "a block that cannot be reached by any file would not be noticed by tests of files; the set of pictures is unbounded", "anchors": ["src/unitycrunch/crn_unpacker.rs", "src/crunch/crn_symbol_codec.rs", "src/crunch/crn_static_huffman_data_model.rs", "src/unitycrunch.rs", "src/crunch.rs"]}
{"id": "C68", "title": "The number of leading zeros", "statement": "For every u32 x, `__builtin_clz` ends without a panic and gives 32 for 0 and otherwise the r with 2^(31-r) <= x < 2^(32-r).", "quantifier": "all u32 values; both builds", "why_tests_cant": "2^32 inputs, and the function is private and not called, so no test reaches it", "anchors": ["src/f16.rs"]}
{"id": "C69", "title": "The errors of the crunch decoders", "statement": "For each of the 256 format numbers a crunch file can carry, and for each build, the messages decode_crunch and decode_unity_crunch can return are exactly those of a fixed list: every error has one of them, and every one of them is returned for some file. Five messages of the source are never returned, and the Unity decoder never complains about the row size.", "quantifier": "all byte slices, sizes, images; all format numbers 0..255; both builds", "why_tests_cant": "that a message is never returned, or that no other one is, is a statement about all malformed files", "anchors": ["src/crunch.rs: decode_crunch, crunch_unpack_level", "src/unitycrunch.rs: decode_unity_crunch", "src/crunch/crn_unpacker.rs", "src/unitycrunch/crn_unpacker.rs", "src/crunch/crn_decomp.rs"]}
{"id": "C70", "title": "Huffman decoding with arbitrary code lengths", "statement": "For any code lengths (each 0 to 16, of 1 to 8192 symbols; complete, incomplete, oversubscribed or without any code word) building the tables never panics; it fails exactly if a lookup table is needed and the codes fitting in it are oversubscribed. Looking up a window delivers exactly the symbol whose canonical code the window starts with; the canonical codes tile all windows below their total share; windows above are an error; only a code without code words makes every look-up panic. From any codec state with a byte to look at, decoding gives a symbol that has a code, or an error.", "quantifier": "all lists of code lengths, all 32-bit windows, all codec states, both build modes", "why_tests_cant": "there are 17^8192 lists of lengths; corrupt files reach the incomplete and oversubscribed ones that encoders never write", "anchors": ["src/crunch/crn_static_huffman_data_model.rs:29-262", "src/crunch/crn_symbol_codec.rs:174-242"]}
{"id": "C71", "title": "Damaged levels do not crash the crunch unpacker", "statement": "Take a crunch file whose header, code tables and palettes are written as specified, whose codes each have a code word and whose codes for palette moves have no symbol greater than the palette. Then whatever bytes stand where a level should be, unpacking that level never panics: it gives a picture made of existing palette entries, or, only if some code is incomplete, the error of the format; with complete codes every byte string is a picture. So damaging the levels of a good file in any way is harmless. The bound on the symbols is needed.", "quantifier": "all files, all bytes of the levels, all levels, formats, faces and sizes whose positions stay below 2^31, both builds", "why_tests_cant": "the level bytes are arbitrary and unbounded; a fuzzer only samples them, and a crash needs one particular run of symbols", "anchors": ["src/crunch/crn_unpacker.rs:387-1116", "src/crunch/crn_symbol_codec.rs:174-242", "src/crunch/crn_utils.rs: limit", "src/crunch.rs: crunch_unpack_level, decode_crunch"]}
{"id": "C72", "title": "Damaged levels do not crash the Unity crunch unpacker", "statement": "Take a Unity crunch file whose header, code tables and palettes are written as specified, whose codes each have a code word, whose codes for end points have no symbol greater than the number of end points and whose codes for selectors have only symbols less than the number of selectors. Then whatever bytes stand where a level should be, unpacking that level never panics: it gives a sequence of blocks each made of existing palette entries, as many as all faces have, or, only if some code is incomplete, the error of the format; with complete codes every byte string is a picture. So damaging the levels of a good file in any way is harmless. The stricter bound on selector symbols is needed.", "quantifier": "all files, all bytes of the levels, all levels, all fourteen formats, faces and sizes that can be unpacked at all, both builds", "why_tests_cant": "the level bytes are arbitrary and unbounded; a fuzzer only samples them, and a crash needs one particular run of symbols", "anchors": ["src/unitycrunch/crn_unpacker.rs:513-1277", "src/crunch/crn_symbol_codec.rs", "src/unitycrunch.rs:9-68"]}
{"id": "C73", "title": "Damage behind the codes does not crash the crunch unpackers", "statement": "Take a crunch file of which only the header and the codes are as specified: the codes of the tables and the codes at the start of the palettes each have a code word, the codes of selectors have no symbol beyond the moves of two values, and the codes for palette moves no symbol greater than the announced palette size. Then whatever bytes follow the codes, in the palettes and in the levels, unpacking never panics: if a palette code is incomplete the file may be refused; otherwise there are palettes of exactly the announced sizes and the level is a picture made of their entries, or, only if a level code is incomplete, the error of the format. With complete codes every byte string behind the codes is a picture. The bound on selector symbols is needed.", "quantifier": "all files, all bytes behind the codes, all levels, formats, faces and sizes whose positions stay below 2^31, both builds", "why_tests_cant": "the bytes of palettes and levels are arbitrary and unbounded; a fuzzer only samples them, and a crash needs one particular run of symbols", "anchors": ["src/crunch/crn_unpacker.rs:177-386", "src/crunch/crn_unpacker.rs:387-1116", "src/crunch/crn_symbol_codec.rs:174-242", "src/crunch.rs: crunch_unpack_level, decode_crunch"]}
{"id": "C74", "title": "Damage behind the codes does not crash the Unity crunch unpackers", "statement": "Take a Unity crunch file of which only the header and the codes are as specified: every code has a code word, end point moves have no symbol greater than the announced number of end points, selector symbols are less than the number of selectors, and in a checked build the code of the colours of ETC formats has only symbols below 225. Then whatever bytes follow the codes, in the palettes and in the levels, unpacking never panics: if a palette code is incomplete the file may be refused; otherwise there are palettes of exactly the announced sizes (with components of five bits for formats with halves), and the level is made of as many blocks as all faces have, each drawn from these palettes, or, only if a level code is incomplete, the error of the format. With complete codes every byte string behind the codes is a picture. The bound 225 is exact: symbol 225 panics in a checked build.", "quantifier": "all files, all bytes behind the codes, all levels, all formats, faces and sizes that can be unpacked at all, both builds", "why_tests_cant": "the bytes of palettes and levels are arbitrary and unbounded; a fuzzer only samples them, and a crash needs one particular run of symbols", "anchors": ["src/unitycrunch/crn_unpacker.rs:122-512", "src/unitycrunch/crn_unpacker.rs:513-1277", "src/crunch/crn_symbol_codec.rs:174-242", "src/unitycrunch.rs:9-68"]}
{"id": "C75", "title": "Decoding commutes with cutting and stacking pictures", "statement": "For each of the seventeen 4x4 formats, for BC6H (wrapping build) and for ASTC with well-formed blocks (block sides of at least 2, at most 144 texels per block): cut any rectangle that starts at a block out of the compressed data (its width and height need not be multiples of the block size); decoding these bytes succeeds and gives exactly that rectangle of the decoded picture. Two pictures of the same width, the first with a height that is a multiple of the block height, are put below each other by joining their bytes: decoding the joined bytes gives the first picture above the second.", "quantifier": "all data, all widths and heights that fit a usize, all rectangles, all image buffers, both builds", "why_tests_cant": "the sizes and positions are unbounded; tests decode one 512x512 texture per format and never a part of it", "anchors": ["src/macros.rs:5-40", "src/color.rs:83-108", "src/astc.rs: decode_astc", "src/bcn.rs:31-42"]}
{"id": "C76", "title": "Which pictures the formats can store", "statement": "BC1, BC1A, BC2, BC3, BC4, BC5, ATC RGB and ATC RGBA data of a given size decode to exactly those pictures in which each 4x4 block has end points whose colours contain all its pixels: each such picture has data of the exact length that decodes to it in any sufficient buffer, and every decoded picture is such a picture (ATC with the darkened colour of the code). BC7 and ASTC can store losslessly every picture of solid blocks, whatever the 32-bit colours, for ASTC with any block of sides at least 2 and at most 144 texels.", "quantifier": "all pictures, all widths and heights whose buffers fit the memory, both builds", "why_tests_cant": "that no other picture can be decoded, and that each of the unboundedly many storable ones can, cannot be seen from one texture per format", "anchors": ["src/bcn/bc1.rs", "src/bcn/bc2.rs", "src/bcn/bc3.rs", "src/bcn/bc4.rs", "src/bcn/bc5.rs", "src/bcn/bc7.rs", "src/atc.rs", "src/astc.rs: decode_astc_block, decode_astc", "src/macros.rs:5-40"]}
{"id": "C77", "title": "PVRTC textures wrap around", "statement": "Moving the blocks of a PVRTC texture whose sides are whole numbers of blocks cyclically by any number of columns and rows, and decoding, gives the decoded picture moved cyclically by as many blocks: no border is treated differently from the inside, at 4 and at 2 bits per pixel. If all blocks of a texture have the same two end points, each pixel is the blend of the two colours (expanded to eight bits by replication) by the pixel's modulation value: interpolating between blocks adds no error.", "quantifier": "all data, all power-of-two numbers of blocks, all moves, both builds", "why_tests_cant": "a test compares one texture with one reference; wrong wrap-around shows only at borders, for some sizes and moves, which are unbounded", "anchors": ["src/pvrtc.rs:65-76", "src/pvrtc.rs:183-370", "src/pvrtc.rs:372-452"]}
{"id": "C78", "title": "A decoded picture has only the channels of its format", "statement": "Whatever the data, each decoded pixel is a 32-bit word, and: BC1, ATC RGB, ETC1 and ETC2 RGB pictures are opaque everywhere; BC4 and EAC R11 (both signs) pictures are opaque with green and blue zero; BC5 and EAC RG11 (both signs) pictures are opaque with blue zero; BC1A and ETC2 punch-through pixels have alpha 0 or 255; the alpha of BC2 is a multiple of 17.", "quantifier": "all data, all sizes, all pixels, both builds", "why_tests_cant": "one texture per format shows a few of the block modes; a mode that forgets the alpha byte, or keeps a channel of the previous block, need not occur in it", "anchors": ["src/bcn/bc1.rs", "src/bcn/bc2.rs", "src/bcn/bc4.rs", "src/bcn/bc5.rs", "src/atc.rs", "src/etc/etc1.rs", "src/etc/etc2.rs", "src/etc/eac.rs", "src/macros.rs:5-40"]}
{"id": "C79", "title": "Compressed pictures can be turned upside down without decoding them", "statement": "For BC1, BC1A, BC2, BC3, BC4, BC5 and both ATC formats: reversing the four rows of indices inside every block (bytes of two-bit indices, pairs of bytes of four-bit alpha, twelve-bit groups of three-bit indices) and reversing the order of the rows of blocks gives data that decodes, at every width and every height that is a multiple of four, to the same picture upside down.", "quantifier": "all data, all widths, all heights that are multiples of four, all output buffers, both builds", "why_tests_cant": "relates two decodings of different data for every texture and size; a texel order that is wrong only where a row of three-bit indices crosses a byte shows in a few of the 16 texels", "anchors": ["src/bcn/bc1.rs", "src/bcn/bc2.rs", "src/bcn/bc3.rs", "src/bcn/bc4.rs", "src/bcn/bc5.rs", "src/atc.rs", "src/macros.rs:5-40", "src/color.rs"]}
{"id": "C80", "title": "Interpolated channels stay between the end points", "statement": "In every decoded picture: the colour channels of BC1, BC1A, BC2 and BC3 are between the expanded end points of their block, except index 3 of three-colour blocks; the alpha of BC3 and the channels of BC4 and BC5 are between the two end point bytes, except indices 6 and 7 of six-value blocks; the colours of ATC blocks without the mode bit are between their end points; every channel of BC7, also with rotation, is between the end points of the subset of its texel; every channel of a PVRTC pixel is within the expanded bounds of the end points of the four blocks around it, except the alpha of punched-through pixels.", "quantifier": "all data, all sizes, all pixels, both builds", "why_tests_cant": "an overshoot by rounding, or an intermediate that wraps around, needs particular end points and indices among 2^64 or 2^128 blocks", "anchors": ["src/bcn/bc1.rs", "src/bcn/bc2.rs", "src/bcn/bc3.rs", "src/bcn/bc4.rs", "src/bcn/bc5.rs", "src/bcn/bc7.rs", "src/atc.rs", "src/pvrtc.rs", "src/macros.rs:5-40"]}
{"id": "C81", "title": "The axes of compressed pictures can be exchanged without decoding them", "statement": "For BC1, BC1A, BC2, BC3, BC4, BC5, both ATC formats, ETC1, ETC2 RGB, ETC2 with punch-through alpha and ETC2 RGBA8: exchanging the indices of every block along its diagonal (in ETC also toggling the flip bit of blocks with two sub-blocks, and exchanging the horizontal and vertical colours of planar blocks) and the blocks along the diagonal of the picture gives data that decodes, with width and height exchanged, to the same picture with exchanged axes, for every width and height.", "quantifier": "all data, all widths and heights, all output buffers, both builds", "why_tests_cant": "relates two decodings of different data for every texture and size, through every block mode; a planar gradient or a sub-block border that is wrong in one direction only needs particular blocks to show", "anchors": ["src/bcn/bc1.rs", "src/bcn/bc2.rs", "src/bcn/bc3.rs", "src/bcn/bc4.rs", "src/bcn/bc5.rs", "src/atc.rs", "src/etc/etc1.rs", "src/etc/etc2.rs", "src/etc/consts.rs", "src/macros.rs:5-40"]}
{"id": "C82", "title": "Compressed BC1-BC5 and ATC pictures can be rearranged, mirrored and turned without decoding them", "statement": "For BC1, BC1A, BC2, BC3, BC4, BC5 and both ATC formats: if new data is made block by block, each block holding the indices of some block of the old data, moved within the block in any way, then the new data decodes to the picture in which every pixel is the old pixel its index was taken from. In particular the mirror image, the half turn and the quarter turns to the left and right of a picture are decoded from data that is computed by moving indices and blocks.", "quantifier": "all data, all widths and heights (multiples of four along the mirrored sides), all maps of blocks and of texels, all output buffers, both builds", "why_tests_cant": "quantifies over every way to move texels within blocks and blocks within pictures, for every texture and size; an index taken from the wrong bits or a texel written to the wrong place shows only for arrangements that separate the two texels", "anchors": ["src/bcn/bc1.rs", "src/bcn/bc2.rs", "src/bcn/bc3.rs", "src/bcn/bc4.rs", "src/bcn/bc5.rs", "src/atc.rs", "src/macros.rs:5-40"]}
{"id": "C83", "title": "The ETC decoders show exactly the pictures made of the contents the formats can describe", "statement": "For ETC1, ETC2 RGB, ETC2 RGBA1 and ETC2 RGBA8: a picture is decoded from some data if and only if each of its 4x4 blocks, as far as it lies inside the picture, is part of a pattern of the format. The patterns are described without bits: two halves with two colours of four bits per channel (individual) or two close colours of five bits per channel (differential; for ETC1 close on the circle of 32 values), one colour and three shades of another (T), two shades of two colours whose order is given by the parity of the distance (H), and planes through three 6-7-6 bit colours (planar); for RGBA1 also with transparent texels, for RGBA8 with any alpha pattern. So every combination of parameters can be encoded, in every mode, although the modes are told apart by overflows of channels that share their bits with the parameters.", "quantifier": "all pictures of all sizes, all parameters of all modes, all data, all output buffers, both builds", "why_tests_cant": "the claim is about the existence of data for each of the 2^57 planar parameter combinations and all T, H and two-colour blocks, and about the absence of any other picture; a decoder with a misplaced bit or a wrong mode test loses or adds pictures that sample textures need not contain", "anchors": ["src/etc/etc1.rs", "src/etc/etc2.rs", "src/etc/consts.rs", "src/macros.rs:5-40"]}
{"id": "C84", "title": "The BC7 decoder shows exactly the pictures made of the contents BC7 can describe", "statement": "A picture is decoded by the BC7 decoder from some data if and only if each of its 4x4 blocks, as far as it lies inside the picture, is transparent black (reserved mode) or made of a mode, a partition, end points of the mode's precision for each subset (with the low bit shared by the channels of an end point, or of a subset), a weight for each texel (two in modes 4 and 5, which the selector may exchange) and an exchange of alpha with a colour. Every weight can be chosen for every texel: that the top bit of the anchors' indices is not stored excludes no picture.", "quantifier": "all pictures of all sizes, all modes, partitions, end points and weights, all data, all output buffers, both builds", "why_tests_cant": "the claim is about the existence of data for each of about 2^128 block contents and the absence of any other picture; a field read at a wrong offset in one mode and partition, or a wrong anchor, removes or adds pictures that sample textures need not contain", "anchors": ["src/bcn/bc7.rs", "src/bcn/consts.rs", "src/macros.rs:5-40"]}
{"id": "C85", "title": "ASTC stores pictures with two colours per block without loss", "statement": "For the block sizes with at most 64 texels: whenever two colours of a kind (grey, grey with alpha, colour, colour with alpha) at 8 bits per number and one weight of 1 to 5 bits per texel fit into the 128 bits of a block (and the weights take the 24 to 96 bits the format demands), every picture whose blocks consist of two colours of that kind and the shades between them is decoded exactly from some data of the prescribed size. In particular pictures with any two colours and alphas per block can be stored without loss in blocks of 4x4 to 8x5 texels, any two opaque colours in 8x6, 10x5 and 10x6, any two greys with alpha in 8x8.", "quantifier": "all pictures of all sizes with such blocks, all ten block sizes, four kinds of colours, five weight sizes, all output buffers, both builds", "why_tests_cant": "each block size has its own mode bits, and the weights, stored in reverse from the top of the block, meet every colour value; one wrong level, grid position or byte shows up only in particular contents, and the claim is that data exists for all of them", "anchors": ["src/astc.rs"]}
{"id": "C86", "title": "PVRTC stores pictures made of one pair of colours without loss", "statement": "For every pair of colours a PVRTC block can hold and every size whose block counts are powers of two: at 4 bits per pixel every picture whose 4x4 blocks are each made of the pair and its 3/8 and 5/8 mixtures, or of the pair, its half mixture and the transparent half mixture, is decoded exactly from some data of 8 bytes per block, and data in which all blocks have the same pair shows only such pictures; at 2 bits per pixel every picture made of the two colours is decoded exactly from some data, and data in which all blocks have the same pair shows only mixtures in eighths.", "quantifier": "all pairs of representable colours, all pictures of all such sizes, all output buffers, both builds; for the converse all data", "why_tests_cant": "the colours are interpolated between four neighbouring blocks found by interleaved coordinates that wrap around; an error in the weights, the scaling to eight bits, the modulation bits or the block order shows only for particular colours, positions and shapes, and the claim is that data exists for every picture", "anchors": ["src/pvrtc.rs"]}
{"id": "C87", "title": "BC6H images in both builds, and pictures BC6H stores without loss", "statement": "With overflow checks, too, the BC6H decoders check the sizes and decode every image without blocks of mode 15 to exactly the texels that the block decoder computes, at the right places and leaving the rest of the buffer alone; every image with a block of mode 15 makes them panic. For every picture each of whose 4x4 blocks consists of two colours with 10 bits per channel (unsigned: other than 512 and 1023; signed: not negative) and the fourteen tones between them, interpolated as half-floats and converted to bytes, there is data of 16 bytes per block from which both builds decode exactly this picture.", "quantifier": "all data, sizes and buffers; all pictures of all sizes with such blocks; signed and unsigned; both builds", "why_tests_cant": "the first texel of a block has one index bit less, so half of the pictures need their end points exchanged; the claim is that data exists for every picture, and wrong tones show only for particular end points and indices", "anchors": ["src/bcn/bc6.rs", "src/macros.rs"]}
{"id": "C88", "title": "Exactly which pictures BC6H decoding shows", "statement": "A picture is decoded by the BC6H decoder from some data of 16 bytes per block if and only if each of its 4x4 blocks is either transparent black or is described by one of the fourteen modes: one subset, or one of 32 partitions into two; for each end point and channel a number of the mode's size, or a difference of the mode's size to the first number, taken modulo the number size; and per texel a weight of 4 bits (one subset) or 3 bits (two), where the first texels of the subsets take only weights of the first half. With overflow checks, mode 15 is excluded. The deviations of the decoder in expanding the numbers (C15, C45) are part of the description.", "quantifier": "all pictures of all sizes, all data and buffers, signed and unsigned, both builds", "why_tests_cant": "that data exists for every such picture rests on the scattered bits of every component being read without gap or overlap in all fourteen modes; a bit read from a wrong place shows only for particular numbers in one mode", "anchors": ["src/bcn/bc6.rs", "src/macros.rs"]}
{"id": "C89", "title": "Exactly which pictures EAC R11 and RG11 decoding shows", "statement": "A picture is decoded by the EAC R11 (RG11) decoder, unsigned or signed, from some data of 8 (16) bytes per block if and only if in each 4x4 block the red (and green) values come from a base of 8 bits, a multiplier and a table of 4 bits and a choice of eight values per texel, where the choices of the right column and of two further texels are given by the base, the table and the multiplier, except for two bits. So of the 256 pictures of one red that are at least 4x4 texels large, exactly the listed 111 have data (signed: 15), while the format has a block for each of them.", "quantifier": "all pictures of all sizes, all data and buffers, both builds; all 256 reds", "why_tests_cant": "that no data of any content shows a given picture is a statement about all 2^64 blocks", "anchors": ["src/etc/eac.rs", "src/macros.rs"]}
