(** * Specification of the contents of a level of a Unity crunch file. *)
From Verif Require Import Base BaseLemmas SpecCrn SpecCrnLevel.

(** Values given by recursion on block numbers: [step before n] computes the
    value of block [n] from the values of the blocks before it; blocks before
    the first one count as [z]. *)
Fixpoint history {A} (z : A) (step : (Z -> A) -> Z -> A) (k : nat) : Z -> A :=
  match k with
  | O => fun _ => z
  | S k' => fun n => if n =? Z.of_nat k' then step (history z step k') n else history z step k' n
  end.
Definition value {A} (z : A) (step : (Z -> A) -> Z -> A) (n : Z) : A := history z step (Z.to_nat (n + 1)) n.

(** Blocks are stored row by row; every face is completed to an even number of
    rows and columns. *)
Definition even_up (n : Z) : Z := 2 * ((n + 1) / 2).

Section Level.
Context (W H faces : Z).
Definition u_cols : Z := even_up W.
Definition u_rows : Z := even_up H.
Definition u_blocks : Z := faces * u_rows * u_cols.
Definition u_place (f x y : Z) : Z := (f * u_rows + y) * u_cols + x.
(** Row (counted through all faces) and column of a block. *)
Definition u_row (n : Z) : Z := n / u_cols.
Definition u_col (n : Z) : Z := n mod u_cols.

(** The visible blocks, row by row. *)
Definition u_visible (block : Z -> list Z) : list Z :=
  flat_map (fun q => block (u_place (q / W / H) (q mod W) ((q / W) mod H))) (zrange 0 (faces * H * W)).

(** ** The DXT family *)

(** The symbols: [u_ref g] tells where the end points of the four blocks of a
    square of 2 x 2 blocks come from; [u_end p n] moves the end point index of
    plane [p] at block [n]; [u_sel p n] is the selector index. *)
Record u_symbols := mkUSymbols { u_ref : Z -> Z; u_end : Z -> Z -> Z; u_sel : Z -> Z -> Z }.

Context (planes : list plane) (order : list Z) (D : u_symbols).

(** The square of a block, and the source of its end points: 0 for moved from
    the block before, 1 for the same as the block before, 2 and 3 for the same
    as the block above. *)
Definition u_square (n : Z) : Z := (u_row n / 2) * (u_cols / 2) + u_col n / 2.
Definition u_source (n : Z) : Z := u_ref D (u_square n) / 4 ^ (2 * (u_col n mod 2) + u_row n mod 2) mod 4.

Definition u_end_index (p : Z) : Z -> Z :=
  value 0 (fun before n =>
    if u_source n =? 0 then (before (n - 1) + u_end D p n) mod pl_ends (plane_at planes p)
    else if u_source n =? 1 then before (n - 1)
    else before (n - u_cols)).

(** The symbols of a block in the order of the file; the planes in [order]. *)
Definition u_block_symbols (n : Z) : list (kind * Z) :=
  (if (u_row n mod 2 =? 0) && (u_col n mod 2 =? 0) then [(Chunks, u_ref D (u_square n))] else []) ++
  (if u_source n =? 0 then map (fun p => (pl_end (plane_at planes p), u_end D p n)) order else []) ++
  map (fun p => (pl_sel (plane_at planes p), u_sel D p n)) order.
Definition u_level_symbols : list (kind * Z) := flat_map u_block_symbols (zrange 0 u_blocks).

Definition u_block (n : Z) : list Z :=
  flat_map (fun p => pl_block (plane_at planes p) (u_end_index p n) (u_sel D p n)) (plane_nos planes).
Definition u_level_blocks : list Z := u_visible u_block.

(** Symbols that make sense: indices and moves within the palettes. *)
Definition u_sensible : Prop :=
  (forall g, 0 <= u_ref D g < 256) /\
  (forall p n, 0 <= p < zlen planes -> 0 <= u_end D p n < pl_ends (plane_at planes p)) /\
  (forall p n, 0 <= p < zlen planes -> 0 <= u_sel D p n < pl_sels (plane_at planes p)).

(** ** ETC blocks with two halves *)

(** [e_ref g] tells where the end points of two blocks, one above the other,
    come from; [e_end n] moves the colour of the first half, [e_end2 n] the one
    of the second half, [e_alpha n] the alpha end points; [e_sel n] and
    [e_asel n] are the selector indices. *)
Record e_symbols := mkESymbols {
  e_ref : Z -> Z; e_end : Z -> Z; e_end2 : Z -> Z; e_alpha : Z -> Z; e_sel : Z -> Z; e_asel : Z -> Z }.

Context (with_alpha : bool) (ce cs ae al : list Z) (E : e_symbols).

Definition e_pair (n : Z) : Z := (u_row n / 2) * u_cols + u_col n.
(** Source of the first half: 0 for moved from the block before, 1 for the same
    as the block before, 2 the block above, 3 the block before that one. *)
Definition e_source (n : Z) : Z := e_ref E (e_pair n) / 4 ^ (u_row n mod 2) mod 4.
(** The second half: 0 for the colour of the first one. Halves lie side by side
    from 2 on. *)
Definition e_second (n : Z) : Z := e_ref E (e_pair n) / 4 ^ (2 + u_row n mod 2) mod 4.
Definition e_flip (n : Z) : Z := if e_second n <? 2 then 1 else 0.

(** The colours of the two halves. *)
Definition e_colors : Z -> Z * Z :=
  value (0, 0) (fun before n =>
    let first :=
      if e_source n =? 0 then (snd (before (n - 1)) + e_end E n) mod zlen ce
      else if e_source n =? 1 then snd (before (n - 1))
      else if e_source n =? 2 then fst (before (n - u_cols))
      else snd (before (n - 1 - u_cols)) in
    (first, if e_second n =? 0 then first else (first + e_end2 E n) mod zlen ce)).
Definition e_alpha_index : Z -> Z :=
  value 0 (fun before n =>
    if e_source n =? 0 then (before (n - 1) + e_alpha E n) mod zlen ae
    else if e_source n =? 1 then before (n - 1)
    else if e_source n =? 2 then before (n - u_cols)
    else before (n - 1 - u_cols)).

Definition e_block_symbols (n : Z) : list (kind * Z) :=
  (if u_row n mod 2 =? 0 then [(Chunks, e_ref E (e_pair n))] else []) ++
  (if e_source n =? 0 then (ColorEnd, e_end E n) :: (if with_alpha then [(AlphaEnd, e_alpha E n)] else []) else []) ++
  (ColorSel, e_sel E n) :: (if with_alpha then [(AlphaSel, e_asel E n)] else []) ++
  (if e_second n =? 0 then [] else [(ColorEnd, e_end2 E n)]).
Definition e_level_symbols : list (kind * Z) := flat_map e_block_symbols (zrange 0 u_blocks).

(** The first four bytes of an ETC1 block with the colours [a] and [b] (bytes:
    red, green, blue of five bits; modifier table). *)
Definition color_byte (v c : Z) : Z := v / 256 ^ c mod 256.
Definition close (a b c : Z) : bool :=
  (-4 <=? color_byte b c - color_byte a c) && (color_byte b c - color_byte a c <=? 3).
Definition etc_head (a b flip : Z) : list Z :=
  let diff := close a b 0 && close a b 1 && close a b 2 in
  map (fun c =>
    if diff then color_byte a c * 8 + (color_byte b c - color_byte a c) mod 8
    else color_byte a c / 2 * 16 + color_byte b c / 2) [0; 1; 2] ++
  [color_byte a 3 * 32 + color_byte b 3 * 4 + (if diff then 2 else 0) + flip].

(** Palettes of selectors have two versions of every entry: for halves side by
    side and for halves above each other. *)
Definition e_color_part (n : Z) : list Z :=
  etc_head (znth ce (fst (e_colors n))) (znth ce (snd (e_colors n))) (e_flip n) ++
  le 4 (znth cs (2 * e_sel E n + e_flip n)).
Definition e_alpha_part (n : Z) : list Z :=
  let k := 3 * (2 * e_asel E n + e_flip n) in
  le 2 (znth ae (e_alpha_index n)) ++ le 2 (znth al k) ++ le 2 (znth al (k + 1)) ++ le 2 (znth al (k + 2)).
Definition e_block (n : Z) : list Z := (if with_alpha then e_alpha_part n else []) ++ e_color_part n.
Definition e_level_blocks : list Z := u_visible e_block.

Definition e_sensible : Prop :=
  (forall g, 0 <= e_ref E g < 256) /\
  (forall n, 0 <= e_end E n < zlen ce) /\ (forall n, 0 <= e_end2 E n < zlen ce) /\
  (forall n, 0 <= 2 * e_sel E n < zlen cs - 1) /\
  (with_alpha = true ->
     (forall n, 0 <= e_alpha E n < zlen ae) /\ (forall n, 0 <= 6 * e_asel E n < zlen al - 5)) /\
  Forall (fun v => 0 <= v /\ color_byte v 0 < 32 /\ color_byte v 1 < 32 /\ color_byte v 2 < 32 /\ v / 2 ^ 24 < 8) ce.
End Level.

(** The planes of the DXT family and of the formats without halves: DXT1 and
    ETC1S, the DXT5 family and ETC2AS, DXN, DXT5A. *)
Definition u_planes_of (f : Z) (ce cs ae al : list Z) : list plane :=
  if (f =? 0) || (f =? 13) then [color_plane ce cs]
  else if ((2 <=? f) && (f <=? 6)) || (f =? 14) then [alpha_plane ae al; color_plane ce cs]
  else if (f =? 7) || (f =? 8) then [alpha_plane ae al; alpha_plane ae al]
  else if f =? 9 then [alpha_plane ae al]
  else [].
(** In the file the colour comes first. *)
Definition u_order_of (f : Z) : list Z :=
  if ((2 <=? f) && (f <=? 6)) || (f =? 14) then [1; 0]
  else if (f =? 7) || (f =? 8) then [0; 1]
  else [0].
