(** * Specification of the tables and palettes of a crunch file. *)
From Verif Require Import Base BaseLemmas ModelCrn SpecCrn SpecCrnHeader SpecCrnLevel.

(** ** Transmission of code lengths *)

(** The order in which the lengths of the code-length code are sent. *)
Definition length_order : list Z := [17; 18; 19; 20; 0; 8; 7; 9; 6; 10; 5; 11; 4; 12; 3; 13; 2; 14; 1; 15; 16].

(** [spells cl before items sizes]: with the code-length code [cl], and with the
    lengths [before] known, [items] complete them to [sizes].  A symbol up to
    16 is a length; 17 and 18 are short and long runs of zeros; 19 and 20
    short and long repetitions of the last length. *)
Inductive spells (cl : list Z) : list Z -> list item -> list Z -> Prop :=
| spells_end sizes : spells cl sizes [] sizes
| spells_length l before items sizes : 0 <= l <= 16 ->
    spells cl (before ++ [l]) items sizes -> spells cl before (Sym cl l :: items) sizes
| spells_zeros v before items sizes :
    spells cl (before ++ repeat 0 (Z.to_nat (v + 3))) items sizes ->
    spells cl before (Sym cl 17 :: Raw 3 v :: items) sizes
| spells_many_zeros v before items sizes :
    spells cl (before ++ repeat 0 (Z.to_nat (v + 11))) items sizes ->
    spells cl before (Sym cl 18 :: Raw 7 v :: items) sizes
| spells_repeat l v before items sizes : l <> 0 ->
    spells cl (before ++ [l] ++ repeat l (Z.to_nat (v + 3))) items sizes ->
    spells cl (before ++ [l]) (Sym cl 19 :: Raw 2 v :: items) sizes
| spells_many_repeat l v before items sizes : l <> 0 ->
    spells cl (before ++ [l] ++ repeat l (Z.to_nat (v + 7))) items sizes ->
    spells cl (before ++ [l]) (Sym cl 20 :: Raw 6 v :: items) sizes.

(** The items sending [sizes]: the number of symbols, the number of lengths
    sent for the code-length code, these lengths, and the code lengths. *)
Inductive sends (sizes : list Z) : list item -> Prop :=
| sends_intro num cl items :
    1 <= num <= 21 -> zlen cl = 21 ->
    (forall k, In k (skipn (Z.to_nat num) length_order) -> znth cl k = 0) ->
    spells cl [] items sizes ->
    sends sizes (Raw 14 (zlen sizes) :: Raw 5 num ::
                 map (fun k => Raw 3 (znth cl k)) (firstn (Z.to_nat num) length_order) ++ items).

(** ** Palettes *)

(** A value after [n + 1] moves, modulo [b]. *)
Definition moved (b n : Z) (d : Z -> Z) : Z := zsum (n + 1) d mod b.

(** The number with digits [g 0], [g 1], ... in base [b]. *)
Definition digits (b n : Z) (g : Z -> Z) : Z := zsum n (fun k => g k * b ^ k).

(** Colour end points: red, green, blue of the first and of the second colour
    move by [d i 0] .. [d i 5]; green has six bits, the others five. *)
Definition is_green (k : Z) : bool := k mod 3 =? 1.
Definition color_end_items (s5 s6 : list Z) (d : Z -> Z -> Z) (n : Z) : list item :=
  flat_map (fun i => map (fun k => Sym (if is_green k then s6 else s5) (d i k)) (zrange 0 6)) (zrange 0 n).
Definition color_ends (d : Z -> Z -> Z) (n : Z) : list Z :=
  map (fun i =>
    let v k := moved (if is_green k then 64 else 32) i (fun i' => d i' k) in
    v 0 * 2048 + v 1 * 32 + v 2 + 65536 * (v 3 * 2048 + v 4 * 32 + v 5)) (zrange 0 n).

(** Alpha end points: two bytes move by [d i 0] and [d i 1]. *)
Definition alpha_end_items (s8 : list Z) (d : Z -> Z -> Z) (n : Z) : list item :=
  flat_map (fun i => [Sym s8 (d i 0); Sym s8 (d i 1)]) (zrange 0 n).
Definition alpha_ends (d : Z -> Z -> Z) (n : Z) : list Z :=
  map (fun i => moved 256 i (fun i' => d i' 0) + 256 * moved 256 i (fun i' => d i' 1)) (zrange 0 n).

(** Selectors: sixteen values between 0 and [mx]; the symbol [d i j] moves the
    values 2j and 2j + 1 by amounts between -mx and mx. *)
Definition selector_items (s : list Z) (d : Z -> Z -> Z) (n : Z) : list item :=
  flat_map (fun i => map (fun j => Sym s (d i j)) (zrange 0 8)) (zrange 0 n).
Definition shift_by (mx s k : Z) : Z := (if k mod 2 =? 0 then s mod (2 * mx + 1) else s / (2 * mx + 1)) - mx.
Definition selector_value (mx : Z) (d : Z -> Z -> Z) (i k : Z) : Z :=
  moved (mx + 1) i (fun i' => shift_by mx (d i' (k / 2)) k).

(** The values in increasing order of brightness stand for these selectors of
    the block formats. *)
Definition color_code : list Z := [0; 2; 3; 1].
Definition alpha_code : list Z := [0; 2; 3; 4; 5; 6; 7; 1].
Definition color_sels (d : Z -> Z -> Z) (n : Z) : list Z :=
  map (fun i => digits 4 16 (fun k => znth color_code (selector_value 3 d i k))) (zrange 0 n).
(** 48 bits stored as three words *)
Definition alpha_sels (d : Z -> Z -> Z) (n : Z) : list Z :=
  flat_map (fun i => let v := digits 8 16 (fun k => znth alpha_code (selector_value 7 d i k)) in
                     map (fun w => v / 65536 ^ w mod 65536) (zrange 0 3)) (zrange 0 n).

(** ** Files *)

(** Bytes [ofs] .. [ofs + size - 1] of the file hold [items].  The reader looks
    up to 7 bits ahead. *)
Definition section (data : list Z) (ofs size : Z) : list Z := firstn (Z.to_nat size) (skipn (Z.to_nat ofs) data).
Definition holds (data : list Z) (ofs size : Z) (items : list item) : Prop :=
  0 <= ofs /\ 1 <= size /\ ofs + size <= zlen data /\ Forall item_ok items /\
  exists rest, bit_stream (section data ofs size) = flat_map item_bits items ++ rest /\
    (7 <= zlen rest \/ ofs + size < zlen data).
Definition palette_holds (data : list Z) (p : palette) (items : list item) : Prop := holds data (p_ofs p) (p_size p) items.

(** A code and its transmission. *)
Definition coding (sizes : list Z) (items : list item) : Prop := code_lengths sizes /\ sends sizes items.

(** What a file stores besides the levels: the codes for the levels, and the
    moves in the four palettes. *)
Record contents := mkContents {
  k_sizes : kind -> list Z;
  k_color_ends : Z -> Z -> Z; k_color_sels : Z -> Z -> Z;
  k_alpha_ends : Z -> Z -> Z; k_alpha_sels : Z -> Z -> Z }.

Definition has_color (data : list Z) : Prop := p_num (h_color_endpoints (header_at data)) <> 0.
Definition has_alpha (data : list Z) : Prop := p_num (h_alpha_endpoints (header_at data)) <> 0.

Definition tables_written (data : list Z) (k : contents) : Prop :=
  let h := header_at data in
  exists i ie is_ je js,
    coding (k_sizes k Chunks) i /\
    (has_color data -> coding (k_sizes k ColorEnd) ie /\ coding (k_sizes k ColorSel) is_) /\
    (has_alpha data -> coding (k_sizes k AlphaEnd) je /\ coding (k_sizes k AlphaSel) js) /\
    (~ has_color data -> ie = [] /\ is_ = []) /\ (~ has_alpha data -> je = [] /\ js = []) /\
    holds data (h_tables_ofs h) (h_tables_size h) (i ++ ie ++ is_ ++ je ++ js).
Definition color_written (data : list Z) (k : contents) : Prop :=
  let h := header_at data in
  (exists s5 s6 i5 i6, coding s5 i5 /\ coding s6 i6 /\
     palette_holds data (h_color_endpoints h)
       (i5 ++ i6 ++ color_end_items s5 s6 (k_color_ends k) (p_num (h_color_endpoints h)))) /\
  (exists s i, coding s i /\ (forall a j, 0 <= k_color_sels k a j < 49) /\
     palette_holds data (h_color_selectors h)
       (i ++ selector_items s (k_color_sels k) (p_num (h_color_selectors h)))).
Definition alpha_written (data : list Z) (k : contents) : Prop :=
  let h := header_at data in
  (exists s8 i, coding s8 i /\
     palette_holds data (h_alpha_endpoints h)
       (i ++ alpha_end_items s8 (k_alpha_ends k) (p_num (h_alpha_endpoints h)))) /\
  (exists s i, coding s i /\ (forall a j, 0 <= k_alpha_sels k a j < 225) /\
     palette_holds data (h_alpha_selectors h)
       (i ++ selector_items s (k_alpha_sels k) (p_num (h_alpha_selectors h)))).

(** A complete header, followed by all that it refers to. *)
Definition written (data : list Z) (k : contents) : Prop :=
  bytes data /\ 74 <= zlen data /\ header_room data <= zlen data /\ well_formed data = true /\
  (has_color data \/ has_alpha data) /\
  tables_written data k /\ (has_color data -> color_written data k) /\ (has_alpha data -> alpha_written data k).

(** The palettes of the file. *)
Definition file_planes (data : list Z) (k : contents) : list plane :=
  let h := header_at data in
  let some (n : Z) (l : list Z) := if n =? 0 then [] else l in
  planes_of (h_format h)
    (color_ends (k_color_ends k) (p_num (h_color_endpoints h)))
    (some (p_num (h_color_endpoints h)) (color_sels (k_color_sels k) (p_num (h_color_selectors h))))
    (alpha_ends (k_alpha_ends k) (p_num (h_alpha_endpoints h)))
    (some (p_num (h_alpha_endpoints h)) (alpha_sels (k_alpha_sels k) (p_num (h_alpha_selectors h)))).

(** Where the data of a level is: up to the next level or to the end. *)
Definition level_start (data : list Z) (level : Z) : Z := number data (70 + 4 * level) 4.
Definition level_stop (data : list Z) (level : Z) : Z :=
  if level + 1 <? levels_of data then number data (70 + 4 * (level + 1)) 4 else zlen data.

(** Bytes per block of the supported formats. *)
Definition block_size_of (f : Z) : Z := if (f =? 0) || (f =? 9) then 8 else 16.
(** The farthest position the unpacker of format [f] calculates. *)
Definition level_end (m : build) (f W H faces : Z) : Z :=
  last_chunk W H faces (block_size_of f) +
  (if f =? 0 then loop_reach m H (block_size_of f) else block_reach m W H (block_size_of f)).
