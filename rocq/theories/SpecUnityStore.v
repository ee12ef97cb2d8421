(** * Specification: a way of storing pictures in Unity crunch files.
    Every code has 8192 symbols of 13 bits; every entry of a palette and every
    end point index is stored as the step from the one before. *)
From Verif Require Import Base BaseLemmas ModelCrn SpecCrn SpecCrnHeader SpecCrnLevel SpecCrnFile SpecUnity SpecUnityFile SpecCrnStore.

(** ** The layout of a file
    Header, tables, four palettes of [nce], [ncs], [nae] and [nal] entries, and
    the levels. *)
Section Layout.
Context (f w h faces levels nce ncs nae nal : Z) (tables cends csels aends asels : list Z) (lev : Z -> list Z).
Definition at_color_ends : Z := store_head levels + zlen tables.
Definition at_color_sels : Z := at_color_ends + zlen cends.
Definition at_alpha_ends : Z := at_color_sels + zlen csels.
Definition at_alpha_sels : Z := at_alpha_ends + zlen aends.
Definition at_level (level : Z) : Z := at_alpha_sels + zlen asels + zsum level (fun i => zlen (lev i)).
Definition layout_fields : list (Z * Z) :=
  [(2, 72 * 256 + 120); (2, store_head levels); (2, 0); (4, at_level levels); (2, 0);
   (2, w); (2, h); (1, levels); (1, faces); (1, f); (2, 0); (4, 0); (4, 0); (4, 0);
   (3, at_color_ends); (3, zlen cends); (2, nce);
   (3, at_color_sels); (3, zlen csels); (2, ncs);
   (3, at_alpha_ends); (3, zlen aends); (2, nae);
   (3, at_alpha_sels); (3, zlen asels); (2, nal);
   (2, zlen tables); (3, store_head levels)].
Definition layout : list Z :=
  fields (layout_fields ++ map (fun i => (4, at_level i)) (zrange 0 levels)) ++
  tables ++ cends ++ csels ++ aends ++ asels ++ flat_map lev (zrange 0 levels).
End Layout.

(** ** Palettes
    The components of the end points (red, green, blue of two colours; or red,
    green, blue and the modifier table of an ETC colour; or two alpha values), and
    the sixteen values of the selectors, texels row by row. *)
Record u_palettes := mkUPalettes {
  n_color_ends : Z; v_color_ends : Z -> Z -> Z; n_color_sels : Z; v_color_sels : Z -> Z -> Z;
  n_alpha_ends : Z; v_alpha_ends : Z -> Z -> Z; n_alpha_sels : Z; v_alpha_sels : Z -> Z -> Z }.

Definition component_size (f k : Z) : Z :=
  if is_etc f then (if k =? 3 then 8 else 32) else if is_green k then 64 else 32.
Definition u_palettes_ok (f : Z) (Q : u_palettes) : Prop :=
  0 <= n_color_ends Q <= 8192 /\ 0 <= n_color_sels Q <= 8192 /\ 0 <= n_alpha_ends Q <= 8192 /\ 0 <= n_alpha_sels Q <= 8192 /\
  (forall i k, 0 <= i < n_color_ends Q -> 0 <= k < (if is_etc f then 4 else 6) -> 0 <= v_color_ends Q i k < component_size f k) /\
  (forall i k, 0 <= i < n_color_sels Q -> 0 <= k < 16 -> 0 <= v_color_sels Q i k < 4) /\
  (forall i k, 0 <= i < n_alpha_ends Q -> 0 <= k < 2 -> 0 <= v_alpha_ends Q i k < 256) /\
  (forall i k, 0 <= i < n_alpha_sels Q -> 0 <= k < 16 -> 0 <= v_alpha_sels Q i k < 8).

(** The entries as they appear in blocks.  A palette of selectors is only there
    together with its end points. *)
Definition pal_ce (f : Z) (Q : u_palettes) : list Z :=
  map (fun i => let v := v_color_ends Q i in
    if has_halves f then digits 256 4 v
    else if is_etc f then digits 256 4 (fun k => if k <? 3 then 8 * v k else 32 * v 3 + 4 * v 3 + 2)
    else v 0 * 2048 + v 1 * 32 + v 2 + 65536 * (v 3 * 2048 + v 4 * 32 + v 5)) (zrange 0 (n_color_ends Q)).
Definition pal_ae (Q : u_palettes) : list Z :=
  map (fun i => v_alpha_ends Q i 0 + 256 * v_alpha_ends Q i 1) (zrange 0 (n_alpha_ends Q)).
Definition pal_cs (f : Z) (Q : u_palettes) : list Z :=
  let v := v_color_sels Q in let n := n_color_sels Q in
  if n_color_ends Q =? 0 then []
  else if has_halves f then
    flat_map (fun i => [etc_color_word (fun p => znth etc_color_code (v i p));
                        etc_color_word (fun p => znth etc_color_code (v i (turned p)))]) (zrange 0 n)
  else if is_etc f then map (fun i => etc_color_word (fun p => znth etc_color_code (v i (turned p)))) (zrange 0 n)
  else map (fun i => digits 4 16 (fun k => znth color_code (v i k))) (zrange 0 n).
Definition pal_al (f : Z) (Q : u_palettes) : list Z :=
  let v := v_alpha_sels Q in let n := n_alpha_sels Q in
  if n_alpha_ends Q =? 0 then []
  else if f =? 12 then
    flat_map (fun i => etc_alpha_words (fun p => znth etc_alpha_code (v i p)) ++
                       etc_alpha_words (fun p => znth etc_alpha_code (v i (turned p)))) (zrange 0 n) ++ [0]
  else if f =? 14 then
    flat_map (fun i => etc_alpha_words (fun p => znth etc_alpha_code (v i (turned p)))) (zrange 0 n) ++ [0]
  else flat_map (fun i => let a := digits 8 16 (fun k => znth alpha_code (v i k)) in
                          map (fun w => a / 65536 ^ w mod 65536) (zrange 0 3)) (zrange 0 n).
Definition pal_planes (f : Z) (Q : u_palettes) : list plane :=
  u_planes_of f (pal_ce f Q) (pal_cs f Q) (pal_ae Q) (pal_al f Q).

(** ** Blocks
    For every plane an entry of the end points and one of the selectors.  With
    halves: the end points of the first half, [uc_second] for the second one, and
    [uc_flip] is 1 for halves above each other; the colour is the last plane. *)
Record u_cell := mkUCell { uc_end : Z -> Z; uc_sel : Z -> Z; uc_second : Z; uc_flip : Z }.
Definition color_no (f : Z) : Z := if f =? 12 then 1 else 0.

Definition u_draw (f : Z) (Q : u_palettes) (c : u_cell) : list Z :=
  if has_halves f then
    (if f =? 12 then
       le 2 (znth (pal_ae Q) (uc_end c 0)) ++
       flat_map (fun w => le 2 (znth (pal_al f Q) (6 * uc_sel c 0 + 3 * uc_flip c + w))) [0; 1; 2]
     else []) ++
    etc_head (znth (pal_ce f Q) (uc_end c (color_no f))) (znth (pal_ce f Q) (uc_second c)) (uc_flip c) ++
    le 4 (znth (pal_cs f Q) (2 * uc_sel c (color_no f) + uc_flip c))
  else flat_map (fun p => pl_block (plane_at (pal_planes f Q) p) (uc_end c p) (uc_sel c p)) (plane_nos (pal_planes f Q)).

(** Only entries that exist. *)
Definition u_cell_ok (f : Z) (Q : u_palettes) (c : u_cell) : Prop :=
  if has_halves f then
    0 <= uc_end c (color_no f) < n_color_ends Q /\ 0 <= uc_second c < n_color_ends Q /\
    0 <= uc_sel c (color_no f) < n_color_sels Q /\ 0 <= uc_flip c < 2 /\
    (f = 12 -> 0 <= uc_end c 0 < n_alpha_ends Q /\ 0 <= uc_sel c 0 < n_alpha_sels Q)
  else forall p, 0 <= p < zlen (pal_planes f Q) ->
    0 <= uc_end c p < pl_ends (plane_at (pal_planes f Q) p) /\ 0 <= uc_sel c p < pl_sels (plane_at (pal_planes f Q) p).

(** The blocks of a picture, row by row. *)
Definition u_picture (f : Z) (Q : u_palettes) (P : Z -> Z -> Z -> u_cell) (W H faces : Z) : list Z :=
  flat_map (fun q => u_draw f Q (P (q / W / H) (q mod W) ((q / W) mod H))) (zrange 0 (faces * H * W)).

(** ** Steps *)
(** The symbol mixing two selectors of [b] values. *)
Definition xor_step (b : Z) (x : Z -> Z -> Z) (i j : Z) : Z :=
  let d k := Z.lxor (x i k mod b) (before (fun i' => x i' k mod b) i) in
  d (2 * j) + b * d (2 * j + 1).
Definition u_stored_contents (f : Z) (Q : u_palettes) : contents :=
  mkContents (fun _ => plain_sizes)
    (fun i k => step_mod (if is_etc f then 32 else if is_green k then 64 else 32) (fun i' => v_color_ends Q i' k) i)
    (xor_step 4 (v_color_sels Q))
    (fun i k => step_mod 256 (fun i' => v_alpha_ends Q i' k) i)
    (xor_step 8 (v_alpha_sels Q)).

(** ** Levels *)
(** Block number [n] of the file; blocks beyond the picture use the first
    entries. *)
Definition blank : u_cell := mkUCell (fun _ => 0) (fun _ => 0) 0 0.
Definition u_cell_at (P : Z -> Z -> Z -> u_cell) (W H n : Z) : u_cell :=
  let x := n mod u_cols W in let y := (n / u_cols W) mod u_rows H in
  if (x <? W) && (y <? H) then P (n / u_cols W / u_rows H) x y else blank.

Section Stored.
Context (f : Z) (Q : u_palettes) (P : Z -> Z -> Z -> u_cell) (W H : Z).
Let at_ n := u_cell_at P W H n.
(** All end points are moved from the block before. *)
Definition stored_plain : u_symbols :=
  let planes := pal_planes f Q in
  mkUSymbols (fun _ => 0)
    (fun p n => (uc_end (at_ n) p - before (fun n' => uc_end (at_ n') p) n) mod pl_ends (plane_at planes p))
    (fun p n => uc_sel (at_ n) p mod pl_sels (plane_at planes p)).
(** The second half is always moved from the first one; the code also tells how
    the block is halved. *)
Definition second_code (n : Z) : Z := if uc_flip (at_ n) =? 1 then 1 else 2.
Definition stored_halves : e_symbols :=
  let c := color_no f in
  let first n := uc_end (at_ n) c in
  let second n := uc_second (at_ n) in
  let upper g := 2 * (g / u_cols W) * u_cols W + g mod u_cols W in
  mkESymbols
    (fun g => 16 * second_code (upper g) + 64 * second_code (upper g + u_cols W))
    (fun n => (first n - before second n) mod n_color_ends Q)
    (fun n => (second n - first n) mod n_color_ends Q)
    (fun n => (uc_end (at_ n) 0 - before (fun n' => uc_end (at_ n') 0) n) mod n_alpha_ends Q)
    (fun n => uc_sel (at_ n) c mod n_color_sels Q)
    (fun n => uc_sel (at_ n) 0 mod n_alpha_sels Q).
Definition u_stored_level : u_level := if has_halves f then Halves stored_halves else Plain stored_plain.
Definition u_stored_stream (faces : Z) : list (kind * Z) :=
  if has_halves f then e_level_symbols W H faces (f =? 12) stored_halves
  else u_level_symbols W H faces (pal_planes f Q) (u_order_of f) stored_plain.
End Stored.

(** ** Files *)
Section File.
Context (f w h faces levels : Z) (Q : u_palettes) (P : Z -> Z -> Z -> Z -> u_cell).
Let K := u_stored_contents f Q.
Definition sent (n : Z) : list item := if n =? 0 then [] else plain_sending.
Definition u_table_items : list item :=
  plain_sending ++ sent (n_color_ends Q) ++ sent (n_color_ends Q) ++ sent (n_alpha_ends Q) ++ sent (n_alpha_ends Q).
Definition u_color_end_items : list item :=
  if is_etc f then plain_sending ++ etc_end_items plain_sizes (k_color_ends K) (n_color_ends Q)
  else plain_sending ++ plain_sending ++ color_end_items plain_sizes plain_sizes (k_color_ends K) (n_color_ends Q).
Definition u_color_sel_items : list item := plain_sending ++ selector_items plain_sizes (k_color_sels K) (n_color_sels Q).
Definition u_alpha_end_items : list item := plain_sending ++ alpha_end_items plain_sizes (k_alpha_ends K) (n_alpha_ends Q).
Definition u_alpha_sel_items : list item := plain_sending ++ selector_items plain_sizes (k_alpha_sels K) (n_alpha_sels Q).
Definition u_store_level (level : Z) : list Z :=
  pack (symbol_bits (fun _ => plain_sizes) (u_stored_stream f Q (P level) (level_cols w level) (level_cols h level) faces)).
Definition u_store : list Z :=
  layout f w h faces levels (n_color_ends Q) (n_color_sels Q) (n_alpha_ends Q) (n_alpha_sels Q)
    (pack_items u_table_items) (pack_items u_color_end_items) (pack_items u_color_sel_items)
    (pack_items u_alpha_end_items) (pack_items u_alpha_sel_items) u_store_level.
End File.

(** What can be stored. *)
Definition u_storable (f w h faces levels : Z) (Q : u_palettes) (P : Z -> Z -> Z -> Z -> u_cell) : Prop :=
  (f = 0 \/ 2 <= f <= 14) /\ 1 <= w < 2 ^ 16 /\ 1 <= h < 2 ^ 16 /\ 1 <= faces < 2 ^ 8 /\ 1 <= levels <= 16 /\
  u_palettes_ok f Q /\
  (forall level g x y, 0 <= level < levels -> 0 <= g < faces -> 0 <= x < level_cols w level -> 0 <= y < level_cols h level ->
     u_cell_ok f Q (P level g x y)) /\
  zlen (u_store f w h faces levels Q P) < 2 ^ 32.
