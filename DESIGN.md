# Formal model of texture2ddecoder: design

## Trusted base
* The Coq 8.16.1 kernel. `vm_compute` is used for exhaustive sweeps of small
  finite domains and for examples; `coqchk` re-checks all of it without the VM.
* What `Print Assumptions` prints under each theorem of `theories/Prop*.v`:
  "Closed under the global context" for every one of them. No axiom is declared
  and none of the standard library is used by any theorem. `coqchk` lists seven
  entries of `Coq.ssr.ssrunder.Under_rel` (parameters of a module of the standard
  library loaded by `ssreflect`/`lia`); no theorem depends on them.
* The hand translation of `/repo` into `theories/Model*.v`. Every definition
  cites file and lines of the code it stands for.
* The reading of the English claims: `theories/Spec*.v` and the statements in
  `theories/Prop*.v`.

## Modelling conventions
* Rust integers are `Z`; the width of every operation that can leave its type
  is written in the model. Almost every model function takes the build mode
  `m : build`: with `Checked` an overflowing `+ - * << >>` is `Panic` (debug
  profile), with `Wrapping` it wraps (release profile). Theorems hold for both
  unless they say otherwise. Operations that cannot overflow (operands bounded
  by the type they were just cast from) are plain `Z` operations.
* `res A := Ok a | Err msg | Panic`. Out-of-range indices and slices are `Panic`
  in both modes. After a panic no effects are modelled.
* `usize` is 64 bit, the target is little endian (`cfg(target_endian = "big")`
  arms are not modelled).
* `&mut [T]` is a list passed in and returned. Image decoders return
  `res (status * list Z)`: the final image together with `Done` or `Failed msg`,
  so that "the image is untouched on error" can be stated.
* Data are lists of bytes; theorems assume `bytes data` (all in 0..255) and,
  where sizes are multiplied, that the mathematical products fit in `usize`
  (`sane`), or an image length below 2^61.
* `f32` is `Coq.Floats.SpecFloat` (IEEE binary32 computed on integers, no
  axioms). NaN payloads are not modelled; the code only converts NaN to 0.
* `Vec` allocation never fails. Loops over a `while` condition are bounded by a
  count. `ModelLoops` has the same loops as the source has them, without bound,
  and C64 proves that they end, with the outcome of the bounded loop.

## What is modelled
| code | model |
|---|---|
| `color.rs`, `macros.rs`, `bcn.rs` (block loop, copy, size checks) | `ModelColor`, `ModelBc` |
| `bcn/bc1..bc5.rs`, `atc.rs` | `ModelBc` |
| `bcn/bc6.rs`, `bcn/bc7.rs`, `bcn/consts.rs`, `f16.rs` | `ModelBc6`, `ModelBc7`, `ModelBptc`, `ModelF16`, `ModelClz` |
| `bitreader.rs` | `ModelBits` |
| `etc.rs`, `etc/*.rs` | `ModelEtc` |
| `pvrtc.rs` | `ModelPvrtc` |
| `astc.rs` | `ModelAstc` |
| `crnlib.rs`, `crunch/crn_decomp.rs` (header), `crn_symbol_codec.rs`, `crn_static_huffman_data_model.rs`, `crn_utils.rs` | `ModelCrn` |
| `crunch.rs`, `crunch/crn_unpacker.rs` | `ModelCrunch` |
| `unitycrunch.rs`, `unitycrunch/*.rs` | `ModelUnity` |
| `bindings/python/src/lib.rs` | `ModelPy` |
| every `while` and `loop` once more, unbounded | `ModelLoops` |

Not modelled: the non-`alloc` arm of `pvrtc.rs` (it does not compile: its
constants are undefined there), big-endian arms (with the `alloc` feature they do
not compile either: `crn_unpacker.rs` 765-791 names variables that do not exist), Python's own object handling,
`tests/`, and the empty `stop_decoding`.

Simplifications, all stated next to the definitions:
* ASTC: end point, weight, partition and interpolation arithmetic carries the
  overflow checks of the build mode. Written without checks are only sums and
  products of small bit fields: bit counts and positions (below 2^11), grid
  positions and array indices (below 2^10), the infill factors (at most 16).
* Crunch: pointer comparisons of slices (`as_ptr()`) are position comparisons
  within the same slice; decoding tables and models are received once, starting
  from the default value, as in the code's only calls.
* Struct fields that are written and never read are left out.

## Specifications
`Spec*.v` do not use the model's helpers. They describe formats by texel
functions of the block bytes (`SpecBc`, `SpecEtc`, `SpecBptc`/`SpecBc6`/`SpecBc7`,
`SpecPvrtc`, `SpecAstc`), images by `picture` (`SpecImage`), crunch files by
relations between bytes and contents (`SpecCrn*`, `SpecUnity*`: canonical codes,
bit streams, transmission of code lengths, palettes as running sums, levels as
symbol sequences, placement of blocks). `SpecCrnSound` and `SpecUnitySound` say
which pictures a file of arbitrary bytes can show; `SpecCrnStore` and
`SpecUnityStore` are encoders that store any such picture (with palettes of at
most 8192 entries). `SpecCrnErr` lists the messages a crunch file of each format can
lead to; `SpecHuff` says which code lengths the Huffman tables accept; `SpecCrnSafe`
and `SpecUnitySafe` which crunch files survive any damage to the bytes of their
levels; `SpecCrnCodes` and `SpecUnityCodes` which of them survive any damage behind their
codes, also in the palettes. `SpecCut` says what cutting a part out of the compressed
data, or joining the data of two pictures, does to the decoded picture; `SpecEncode`
which pictures a format can store; `SpecPvrShift` that PVRTC pictures move with their
blocks around the torus; `SpecChannels` which channels the pixels of a format have; `SpecFlip` that block data
shuffled row by row decodes to the picture upside down; `SpecBetween` that interpolated
channels stay between the end points; `SpecTranspose` that block data with exchanged axes
decodes to the picture with exchanged axes; `SpecArrange` that BC1-BC5 and ATC data with moved
blocks and indices decodes to the picture with moved pixels (mirror images, turned pictures);
`SpecContent` and `SpecContent7` describe without bits what ETC and BC7 blocks can look like, and
that exactly the pictures made of these patterns are decoded from some data. `SpecContentAstc`
says which two-colour pictures (with shades) ASTC stores without loss; `SpecContentPvr` says which
pictures PVRTC stores with the same two colours in all blocks; `SpecContentBc6` says which pictures
BC6H stores with two colours and their tones per block, and `SpecContent6` exactly which pictures
BC6H decoding shows, over all fourteen modes; `SpecContentEac` does so for EAC R11 and RG11.

* ASTC: `SpecAstc` calls a block legal when its fields fit the 128 bits; the
  format's further limits (at least 24 weight bits, at most 18 colour values, no
  dual plane with four partitions) are not demanded, so the theorems cover more
  blocks than the format allows. `SpecAstcCode` describes what the code does with
  all other blocks: which of them decode, to what, and which panic; there slices
  are taken to be shorter than 2^60 bytes (no slice in memory is longer).

## Files
`Base` (monad, lists, integers), `Model*` (code), `Spec*` (specifications),
`*Lemmas`/`Proof*` (proofs), `Prop*` (final statements, examples, `Print Assumptions`).
Theorem names start with the property they belong to. `_partial`: only part of
the claim (the full claim is in view as `Definition Cxx_statement` or in the
comment above it, and what is missing is said there); `_refuted`: the claim is
false for the code, with a concrete input; `_code`: exact behaviour of the code
where it deviates from the claim.

## Findings (claims which the code violates)
* C05: products in the size checks overflow for huge dimensions.
* C11: BC3, BC4, BC5, ATC RGBA8 write beyond the 16 texels of a longer slice.
* C14, C15, C45: BC6H mode 15 panics with overflow checks; unquantisation takes
  2^(eb-1) for the top value; signed end points are wrong when negative.
* C16, C31: minus infinity in an HDR void-extent ASTC block panics with overflow
  checks (`i -= 1` on `i32::MIN` in `floor`) and becomes 255 without them.
* C17: the darkened ATC colour is not clamped.
* C22: transparent ETC2 texels keep their colour. C24: EAC reads indices from
  the byte-reversed block.
* C25: PVRTC 4bpp accepts half of the data needed and panics; zero sizes panic.
* C30, C47, C48, C49, C52: ASTC blocks without room panic or read the next
  block; illegal blocks are not magenta; negative HDR deltas.
* C36: 16-bit reads. C37, C38, C40: crunch headers ending early, wild offsets and
  the last byte of a section panic.
* C41, C56: several faces with an odd number of block rows can never be unpacked, for every file.
  Positions are `i32`: a level whose positions reach 2^31 (`level_end`) never
  unpacks either; which levels these are depends on the build (65535 x 65535
  DXT5A unpacks without overflow checks and panics with them).
* C43, C58: Unity crunch with an odd number of block columns panics with
  overflow checks, for every file; several faces as above.
* C65: Unity colours of formats with halves keep five bits for the modifier
  table; surplus bits of the second one are mixed into the first one.
* C60: the Python function `decode_astc` fails exactly when decoding succeeds.

## Testing the theorems
`seeded/LOG.jsonl` records edits of the model that break a claim and the
theorems which then fail to compile.

The model itself was compared with the sample textures of the repository: an
extraction of the decoders to OCaml (outside this directory) decodes the files of
`resources/tests`, and the pictures agree with `ferris_512.png` up to the loss of
the format; this includes all levels of the crunch and Unity crunch samples and PVRTC. The two EAC formats do not (18 to 22 dB), which is finding C24.
