(** * Specification of the contents of a level of a crunch file. *)
From Verif Require Import Base BaseLemmas SpecCrn.

(** The five Huffman codes used in the data of a level. *)
Inductive kind := Chunks | ColorEnd | ColorSel | AlphaEnd | AlphaSel.

(** A chunk is a square of 2 x 2 blocks cut into tiles; the blocks of a tile
    share their end points.  The eight ways to cut a chunk: the tiles as
    rectangles (column, row, width, height), in the order of their end
    points. *)
Definition cuts : list (list (Z * Z * Z * Z)) :=
  [[(0, 0, 2, 2)];
   [(0, 0, 2, 1); (0, 1, 2, 1)];
   [(0, 0, 1, 2); (1, 0, 1, 2)];
   [(0, 0, 2, 1); (0, 1, 1, 1); (1, 1, 1, 1)];
   [(0, 1, 2, 1); (0, 0, 1, 1); (1, 0, 1, 1)];
   [(0, 0, 1, 2); (1, 0, 1, 1); (1, 1, 1, 1)];
   [(1, 0, 1, 2); (0, 0, 1, 1); (0, 1, 1, 1)];
   [(0, 0, 1, 1); (1, 0, 1, 1); (0, 1, 1, 1); (1, 1, 1, 1)]].
Definition cut (e : Z) : list (Z * Z * Z * Z) := nth (Z.to_nat e) cuts [].
Definition num_tiles (e : Z) : Z := zlen (cut e).
Definition covers (r : Z * Z * Z * Z) (x y : Z) : bool :=
  let '(c, d, w, h) := r in (c <=? x) && (x <? c + w) && (d <=? y) && (y <? d + h).
Fixpoint find_tile (l : list (Z * Z * Z * Z)) (x y : Z) : Z :=
  match l with [] => 0 | r :: l' => if covers r x y then 0 else 1 + find_tile l' x y end.
(** The tile containing block [k] (rows first) of a chunk cut in way [e]. *)
Definition tile_of (e k : Z) : Z := find_tile (cut e) (k mod 2) (k / 2).

(** A block is one or two planes of 8 bytes; a plane has end points and
    selectors taken from palettes. *)
Record plane := mkPlane {
  pl_end : kind; pl_sel : kind;      (* codes of its end points and selectors *)
  pl_ends : Z; pl_sels : Z;          (* palette sizes *)
  pl_block : Z -> Z -> list Z }.     (* the 8 bytes, given both palette indices *)

(** The symbols of a level: [group g] tells how three chunks in a row are cut,
    [d_end p n t] moves the end point index of plane [p] for tile [t] of chunk
    [n], [d_sel p n k] its selector index for block [k]. *)
Record symbols := mkSymbols {
  group : Z -> Z; d_end : Z -> Z -> Z -> Z; d_sel : Z -> Z -> Z -> Z }.

Definition zsum (n : Z) (f : Z -> Z) : Z := sum (map f (zrange 0 n)).

Section Level.
Context (planes : list plane) (D : symbols).

Definition plane_at (p : Z) : plane := nth (Z.to_nat p) planes (mkPlane Chunks Chunks 0 0 (fun _ _ => [])).
Definition plane_nos : list Z := zrange 0 (zlen planes).

(** How chunk [n] is cut. *)
Definition cut_of (n : Z) : Z := group D (n / 3) / 8 ^ (n mod 3) mod 8.

(** The symbols of chunk [n] in the order of the file. *)
Definition chunk_symbols (n : Z) : list (kind * Z) :=
  (if n mod 3 =? 0 then [(Chunks, group D (n / 3))] else []) ++
  flat_map (fun p => map (fun t => (pl_end (plane_at p), d_end D p n t)) (zrange 0 (num_tiles (cut_of n)))) plane_nos ++
  flat_map (fun k => map (fun p => (pl_sel (plane_at p), d_sel D p n k)) plane_nos) (zrange 0 4).

(** Palette indices: the sums of all moves so far, modulo the palette size. *)
Definition end_index (p n t : Z) : Z :=
  (zsum n (fun n' => zsum (num_tiles (cut_of n')) (d_end D p n')) + zsum (t + 1) (d_end D p n)) mod pl_ends (plane_at p).
Definition sel_index (p n k : Z) : Z :=
  (zsum n (fun n' => zsum 4 (d_sel D p n')) + zsum (k + 1) (d_sel D p n)) mod pl_sels (plane_at p).

(** Block [k] of chunk [n]. *)
Definition chunk_block (n k : Z) : list Z :=
  flat_map (fun p => pl_block (plane_at p) (end_index p n (tile_of (cut_of n) k)) (sel_index p n k)) plane_nos.

(** A level of [W] x [H] blocks and a number of faces: rows of chunks, faces
    one after the other; odd rows run from right to left. *)
Context (W H faces : Z).
Definition chunk_cols : Z := (W + 1) / 2.
Definition chunk_rows : Z := (H + 1) / 2.
Definition num_chunks : Z := faces * chunk_rows * chunk_cols.
Definition chunk_no (f x y : Z) : Z :=
  (f * chunk_rows + y) * chunk_cols + (if Z.odd y then chunk_cols - 1 - x else x).

(** The file's symbols, and the blocks they stand for, row by row. *)
Definition level_symbols : list (kind * Z) := flat_map chunk_symbols (zrange 0 num_chunks).
Definition level_block (f x y : Z) : list Z :=
  chunk_block (chunk_no f (x / 2) (y / 2)) (x mod 2 + 2 * (y mod 2)).
Definition level_blocks : list Z :=
  flat_map (fun q => level_block (q / W / H) (q mod W) ((q / W) mod H)) (zrange 0 (faces * H * W)).

(** Symbols that make sense: three cuts per group, moves smaller than the
    palettes. *)
Definition sensible : Prop :=
  (forall g, 0 <= group D g < 512) /\
  (forall p n t, 0 <= p < zlen planes -> 0 <= d_end D p n t < pl_ends (plane_at p)) /\
  (forall p n k, 0 <= p < zlen planes -> 0 <= d_sel D p n k < pl_sels (plane_at p)).

End Level.

(** Little-endian bytes. *)
Definition le (n v : Z) : list Z := map (fun i => v / 256 ^ i mod 256) (zrange 0 n).

(** A colour block: two 565 colours, sixteen 2-bit selectors; an alpha block:
    two values, sixteen 3-bit selectors stored as three words. *)
Definition color_plane (ends sels : list Z) : plane :=
  mkPlane ColorEnd ColorSel (zlen ends) (zlen sels) (fun e s => le 4 (znth ends e) ++ le 4 (znth sels s)).
Definition alpha_plane (ends sels : list Z) : plane :=
  mkPlane AlphaEnd AlphaSel (zlen ends) (zlen sels / 3)
    (fun e s => le 2 (znth ends e) ++ le 2 (znth sels (3 * s)) ++ le 2 (znth sels (3 * s + 1)) ++ le 2 (znth sels (3 * s + 2))).

(** The planes of the supported formats: DXT1, the DXT5 family, DXN, DXT5A. *)
Definition planes_of (f : Z) (ce cs ae al : list Z) : list plane :=
  if f =? 0 then [color_plane ce cs]
  else if (2 <=? f) && (f <=? 6) then [alpha_plane ae al; color_plane ce cs]
  else if (f =? 7) || (f =? 8) then [alpha_plane ae al; alpha_plane ae al]
  else if f =? 9 then [alpha_plane ae al]
  else [].

(** Sizes of mip levels, in texels and in blocks. *)
Definition level_size (n level : Z) : Z := Z.max 1 (n / 2 ^ level).
Definition level_cols (n level : Z) : Z := (level_size n level + 3) / 4.

(** The codes used for a list of planes. *)
Definition kinds_of (planes : list plane) : list kind :=
  Chunks :: map pl_end planes ++ map pl_sel planes.

(** Symbols as bits, given the code lengths of the codes. *)
Definition symbol_bits (sizes : kind -> list Z) (l : list (kind * Z)) : list bool :=
  flat_map (fun kv => code (sizes (fst kv)) (snd kv)) l.

(** ** Positions in the output
    The unpackers keep the position in the output in an `i32`.  [last_chunk]
    is the position of the last chunk to the right, in bytes, for [faces] faces
    of [W] by [H] blocks of [B] bytes; the other definitions say how far beyond
    it the unpacker of a format calculates: of DXT1 the next chunk, if overflow
    is checked and the last chunk row runs to the right; of the other formats
    the two block rows below, if overflow is checked, and the second block row
    of the chunk otherwise, if there is one.  Without checks, a row running to
    the left may even start at 2^31, as the step to the left wraps back. *)
Definition last_chunk (W H faces B : Z) : Z :=
  (faces * (2 * chunk_rows H) - 2) * (W * B) + 2 * (chunk_cols W - 1) * B.
Definition loop_reach (m : build) (H B : Z) : Z :=
  match m with Checked => if Z.odd (chunk_rows H) then 2 * B else 0 | Wrapping => if Z.odd (chunk_rows H) then 0 else -1 end.
Definition block_reach (m : build) (W H B : Z) : Z :=
  match m with Checked => 2 * (W * B) | Wrapping => if Z.odd H then loop_reach m H B else W * B end.
