(** * Specification: the pictures that crunch files can hold.
    Chunks, their cuts and the planes of a block are those of SpecCrnLevel. *)
From Verif Require Import Base BaseLemmas SpecCrnHeader SpecCrnLevel.

(** A chunk: the way it is cut, for every plane and tile an entry of the
    palette of end points, and for every plane and block an entry of the palette
    of selectors. *)
Record chunk := mkChunk { ch_cut : Z; ch_end : Z -> Z -> Z; ch_sel : Z -> Z -> Z }.

(** One of the eight cuts, and entries that exist. *)
Definition fits_palettes (planes : list plane) (c : chunk) : Prop :=
  0 <= ch_cut c < 8 /\
  forall p, 0 <= p < zlen planes ->
    (forall t, 0 <= t < num_tiles (ch_cut c) -> 0 <= ch_end c p t < pl_ends (plane_at planes p)) /\
    (forall k, 0 <= k < 4 -> 0 <= ch_sel c p k < pl_sels (plane_at planes p)).

(** Block [k] of a chunk. *)
Definition drawn (planes : list plane) (c : chunk) (k : Z) : list Z :=
  flat_map (fun p => pl_block (plane_at planes p) (ch_end c p (tile_of (ch_cut c) k)) (ch_sel c p k)) (plane_nos planes).

(** The blocks of a picture, row by row and face by face; [P f x y] is the chunk
    in column [x] and row [y] of face [f]. *)
Definition chunk_picture (planes : list plane) (P : Z -> Z -> Z -> chunk) (W H faces : Z) : list Z :=
  flat_map (fun q => let x := q mod W in let y := (q / W) mod H in
    drawn planes (P (q / W / H) (x / 2) (y / 2)) (x mod 2 + 2 * (y mod 2))) (zrange 0 (faces * H * W)).
Definition all_fit (planes : list plane) (P : Z -> Z -> Z -> chunk) (W H faces : Z) : Prop :=
  forall f x y, 0 <= f < faces -> 0 <= x < chunk_cols W -> 0 <= y < chunk_rows H -> fits_palettes planes (P f x y).

(** The sizes of the palettes announced by the header of [d]; without end
    points there are no selectors either.  An alpha selector takes three words. *)
Definition palette_sizes (d ce cs ae al : list Z) : Prop :=
  zlen ce = number d 39 2 /\ zlen cs = (if number d 39 2 =? 0 then 0 else number d 47 2) /\
  zlen ae = number d 55 2 /\ zlen al = (if number d 55 2 =? 0 then 0 else 3 * number d 63 2).
