(** * Specification of the palettes and levels of a Unity crunch file. *)
From Verif Require Import Base BaseLemmas ModelCrn SpecCrn SpecCrnHeader SpecCrnLevel SpecCrnFile SpecUnity.

(** Formats: 10 ETC1, 11 ETC2, 12 ETC2 with alpha, 13 ETC1S, 14 ETC2AS; the
    first three have blocks with two halves. *)
Definition is_etc (f : Z) : bool := (10 <=? f) && (f <=? 14).
Definition has_halves (f : Z) : bool := (10 <=? f) && (f <=? 12).

(** ** Palettes *)

(** ETC end points: red, green, blue and the modifier table move by [d i 0] ..
    [d i 3], modulo 32. *)
Definition etc_end_items (s : list Z) (d : Z -> Z -> Z) (n : Z) : list item :=
  flat_map (fun i => map (fun k => Sym s (d i k)) (zrange 0 4)) (zrange 0 n).
Definition etc_component (d : Z -> Z -> Z) (i k : Z) : Z := moved 32 i (fun i' => d i' k).
(** Without halves an entry is the first half of a block: differential mode
    with no difference, the same table twice. *)
Definition etc_ends (halves : bool) (d : Z -> Z -> Z) (n : Z) : list Z :=
  map (fun i => let v := etc_component d i in
    if halves then digits 256 4 v
    else digits 256 4 (fun k => if k <? 3 then 8 * v k else 32 * (v 3 mod 8) + 4 * (v 3 mod 8) + 2)) (zrange 0 n).
Definition u_color_ends (f : Z) (d : Z -> Z -> Z) (n : Z) : list Z :=
  if is_etc f then etc_ends (has_halves f) d n else color_ends d n.

(** Selectors: sixteen values of [b] (four or eight) steps; the symbol [d i j]
    is combined by exclusive or with the values 2j and 2j + 1. *)
Definition mixed (i : Z) (d : Z -> Z) : Z := fold_right Z.lxor 0 (map d (zrange 0 (i + 1))).
Definition mixed_value (b : Z) (d : Z -> Z -> Z) (i k : Z) : Z :=
  mixed i (fun i' => d i' (k / 2) / b ^ (k mod 2) mod b).

(** ETC stores texels column by column. *)
Definition turned (k : Z) : Z := 4 * (k mod 4) + k / 4.
(** The values stand for these selectors of ETC blocks. *)
Definition etc_color_code : list Z := [3; 2; 0; 1].
Definition etc_alpha_code : list Z := [3; 2; 1; 0; 4; 5; 6; 7].
(** Sixteen 2-bit selectors of an ETC block: the upper bits before the lower
    bits, the last texel first, bytes from the most significant one. *)
Definition etc_color_word (g : Z -> Z) : Z :=
  let n := digits 2 32 (fun b => if b <? 16 then g b mod 2 else g (b - 16) / 2) in
  digits 256 4 (fun k => n / 256 ^ (3 - k) mod 256).
(** Sixteen 3-bit selectors: the first texel first, six bytes as three words. *)
Definition etc_alpha_words (g : Z -> Z) : list Z :=
  let n := digits 8 16 (fun k => g (15 - k)) in
  map (fun w => digits 256 2 (fun k => n / 256 ^ (5 - (2 * w + k)) mod 256)) (zrange 0 3).

Definition u_color_sels (f : Z) (d : Z -> Z -> Z) (n : Z) : list Z :=
  let v i k := mixed_value 4 d i k in
  if has_halves f then
    flat_map (fun i => [etc_color_word (fun p => znth etc_color_code (v i p));
                        etc_color_word (fun p => znth etc_color_code (v i (turned p)))]) (zrange 0 n)
  else if is_etc f then map (fun i => etc_color_word (fun p => znth etc_color_code (v i (turned p)))) (zrange 0 n)
  else map (fun i => digits 4 16 (fun k => znth color_code (v i k))) (zrange 0 n).
(** The ETC palettes end with a word that is not used. *)
Definition u_alpha_sels (f : Z) (d : Z -> Z -> Z) (n : Z) : list Z :=
  let v i k := mixed_value 8 d i k in
  if f =? 12 then
    flat_map (fun i => etc_alpha_words (fun p => znth etc_alpha_code (v i p)) ++
                       etc_alpha_words (fun p => znth etc_alpha_code (v i (turned p)))) (zrange 0 n) ++ [0]
  else if f =? 14 then
    flat_map (fun i => etc_alpha_words (fun p => znth etc_alpha_code (v i (turned p)))) (zrange 0 n) ++ [0]
  else flat_map (fun i => let v := digits 8 16 (fun k => znth alpha_code (v i k)) in
                          map (fun w => v / 65536 ^ w mod 65536) (zrange 0 3)) (zrange 0 n).

(** ** Files *)
Definition u_color_written (data : list Z) (k : contents) : Prop :=
  let h := header_at data in
  (if is_etc (h_format h) then
     exists s i, coding s i /\ (forall a j, 0 <= k_color_ends k a j < 32) /\
       palette_holds data (h_color_endpoints h)
         (i ++ etc_end_items s (k_color_ends k) (p_num (h_color_endpoints h)))
   else
     exists s5 s6 i5 i6, coding s5 i5 /\ coding s6 i6 /\
       palette_holds data (h_color_endpoints h)
         (i5 ++ i6 ++ color_end_items s5 s6 (k_color_ends k) (p_num (h_color_endpoints h)))) /\
  (exists s i, coding s i /\ (forall a j, 0 <= k_color_sels k a j < 16) /\
     palette_holds data (h_color_selectors h)
       (i ++ selector_items s (k_color_sels k) (p_num (h_color_selectors h)))).
Definition u_alpha_written (data : list Z) (k : contents) : Prop :=
  let h := header_at data in
  (exists s8 i, coding s8 i /\
     palette_holds data (h_alpha_endpoints h)
       (i ++ alpha_end_items s8 (k_alpha_ends k) (p_num (h_alpha_endpoints h)))) /\
  (exists s i, coding s i /\ (forall a j, 0 <= k_alpha_sels k a j < 64) /\
     palette_holds data (h_alpha_selectors h)
       (i ++ selector_items s (k_alpha_sels k) (p_num (h_alpha_selectors h)))).
Definition u_written (data : list Z) (k : contents) : Prop :=
  bytes data /\ 74 <= zlen data /\ header_room data <= zlen data /\ well_formed data = true /\
  (has_color data \/ has_alpha data) /\
  tables_written data k /\ (has_color data -> u_color_written data k) /\ (has_alpha data -> u_alpha_written data k).

Section File.
Context (data : list Z) (k : contents).
Let h := header_at data.
Let some (n : Z) (l : list Z) := if n =? 0 then [] else l.
Definition u_ce : list Z := u_color_ends (h_format h) (k_color_ends k) (p_num (h_color_endpoints h)).
Definition u_cs : list Z :=
  some (p_num (h_color_endpoints h)) (u_color_sels (h_format h) (k_color_sels k) (p_num (h_color_selectors h))).
Definition u_ae : list Z := alpha_ends (k_alpha_ends k) (p_num (h_alpha_endpoints h)).
Definition u_al : list Z :=
  some (p_num (h_alpha_endpoints h)) (u_alpha_sels (h_format h) (k_alpha_sels k) (p_num (h_alpha_selectors h))).
End File.

(** Bytes per block. *)
Definition u_block_size (f : Z) : Z :=
  if (f =? 0) || (f =? 9) || (f =? 10) || (f =? 11) || (f =? 13) then 8 else 16.

(** A level with or without halves. *)
Inductive u_level := Plain (D : u_symbols) | Halves (E : e_symbols).

Section ULevel.
Context (data : list Z) (k : contents) (level : Z) (L : u_level).
Let f := number data 18 1.
Let W := level_cols (number data 12 2) level.
Let H := level_cols (number data 14 2) level.
Let faces := number data 17 1.
Let planes := u_planes_of f (u_ce data k) (u_cs data k) (u_ae data k) (u_al data k).

(** The symbols fit the format and the palettes. *)
Definition u_level_fits : Prop :=
  match L with
  | Plain D => planes <> [] /\ u_sensible planes D
  | Halves E => has_halves f = true /\ e_sensible (f =? 12) (u_ce data k) (u_cs data k) (u_ae data k) (u_al data k) E
  end.
Definition u_stream : list (kind * Z) :=
  match L with
  | Plain D => u_level_symbols W H faces planes (u_order_of f) D
  | Halves E => e_level_symbols W H faces (f =? 12) E
  end.
(** Block [n] of the level, and the visible blocks. *)
Definition u_block_at (n : Z) : list Z :=
  match L with
  | Plain D => u_block W planes D n
  | Halves E => e_block W (f =? 12) (u_ce data k) (u_cs data k) (u_ae data k) (u_al data k) E n
  end.
Definition u_blocks_of_level : list Z := u_visible W H faces u_block_at.

Definition u_level_written : Prop :=
  0 <= level < 16 /\ level < levels_of data /\
  level_start data level < level_stop data level /\ level_stop data level <= zlen data /\
  1 <= faces /\ u_level_fits /\
  (forall kv, In kv u_stream -> coded (k_sizes k (fst kv)) (snd kv)) /\
  exists rest, bit_stream (section data (level_start data level) (level_stop data level - level_start data level)) =
    symbol_bits (k_sizes k) u_stream ++ rest.
End ULevel.
