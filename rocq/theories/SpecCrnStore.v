(** * Specification: a way of storing pictures in crunch files.
    Every code has 8192 symbols of 13 bits; every entry of a palette and every
    index is stored as the step from the one before. *)
From Verif Require Import Base BaseLemmas ModelCrn SpecCrn SpecCrnHeader SpecCrnLevel SpecCrnFile SpecCrnSound.

(** ** Bits and bytes *)

(** Bytes holding the bits [bs], followed by 8 to 15 bits more. *)
Fixpoint pack (bs : list bool) : list Z :=
  match bs with
  | b0 :: b1 :: b2 :: b3 :: b4 :: b5 :: b6 :: b7 :: tl => value [b0; b1; b2; b3; b4; b5; b6; b7] :: pack tl
  | _ => [value (firstn 8 (bs ++ repeat false 8)); 0]
  end.
Definition pack_items (l : list item) : list Z := pack (flat_map item_bits l).

(** Big-endian numbers: pairs of a size in bytes and a value. *)
Definition be (n v : Z) : list Z := map (fun k => v / 256 ^ (n - 1 - k) mod 256) (zrange 0 n).
Definition fields (l : list (Z * Z)) : list Z := flat_map (fun nv => be (fst nv) (snd nv)) l.

(** ** The code *)
Definition plain_sizes : list Z := repeat 13 (Z.to_nat 8192).
Definition plain_lengths : list Z := map (fun k => if k =? 13 then 1 else 0) (zrange 0 21).
Definition plain_sending : list item :=
  Raw 14 8192 :: Raw 5 21 :: map (fun k => Raw 3 (znth plain_lengths k)) length_order ++ repeat (Sym plain_lengths 13) (Z.to_nat 8192).

(** ** Steps *)
Definition before (x : Z -> Z) (i : Z) : Z := if i =? 0 then 0 else x (i - 1).
Definition step_mod (b : Z) (x : Z -> Z) (i : Z) : Z := (x i - before x i) mod b.

(** The components of the entries of the palettes. *)
Definition color_part (ce : list Z) (i k : Z) : Z :=
  let c := if k <? 3 then znth ce i mod 65536 else znth ce i / 65536 mod 65536 in
  if k mod 3 =? 0 then c / 2048 else if k mod 3 =? 1 then c / 32 mod 64 else c mod 32.
Definition alpha_part (ae : list Z) (i k : Z) : Z := znth ae i / 256 ^ k mod 256.
Definition color_rank : list Z := [0; 3; 1; 2].
Definition alpha_rank : list Z := [0; 7; 1; 2; 3; 4; 5; 6].
Definition color_level (cs : list Z) (i k : Z) : Z := znth color_rank (znth cs i / 4 ^ k mod 4).
Definition alpha_number (al : list Z) (i : Z) : Z :=
  znth al (3 * i) + 65536 * znth al (3 * i + 1) + 65536 ^ 2 * znth al (3 * i + 2).
Definition alpha_level (al : list Z) (i k : Z) : Z := znth alpha_rank (alpha_number al i / 8 ^ k mod 8).

(** The symbol moving two selectors. *)
Definition pair_step (mx : Z) (x : Z -> Z -> Z) (i j : Z) : Z :=
  let d k := x i k - before (fun i' => x i' k) i + mx in
  d (2 * j) + (2 * mx + 1) * d (2 * j + 1).

Definition stored_contents (ce cs ae al : list Z) : contents :=
  mkContents (fun _ => plain_sizes)
    (fun i k => step_mod (if is_green k then 64 else 32) (fun i' => color_part ce i' k) i)
    (pair_step 3 (color_level cs))
    (fun i k => step_mod 256 (fun i' => alpha_part ae i' k) i)
    (pair_step 7 (alpha_level al)).

(** ** Levels *)
(** Chunk number [n] of the file. *)
Definition chunk_at (P : Z -> Z -> Z -> chunk) (W H n : Z) : chunk :=
  let cc := chunk_cols W in let cr := chunk_rows H in
  let y := (n / cc) mod cr in
  P (n / cc / cr) (if Z.odd y then cc - 1 - n mod cc else n mod cc) y.
Definition stored_level (planes : list plane) (P : Z -> Z -> Z -> chunk) (W H : Z) : symbols :=
  let at_ n := chunk_at P W H n in
  let cut n := ch_cut (at_ n) mod 8 in
  let last p n := ch_end (at_ n) p (num_tiles (cut n) - 1) in
  mkSymbols
    (fun g => cut (3 * g) + 8 * cut (3 * g + 1) + 64 * cut (3 * g + 2))
    (fun p n t => (ch_end (at_ n) p t - (if t =? 0 then before (last p) n else ch_end (at_ n) p (t - 1))) mod pl_ends (plane_at planes p))
    (fun p n k => (ch_sel (at_ n) p k - (if k =? 0 then before (fun n' => ch_sel (at_ n') p 3) n else ch_sel (at_ n) p (k - 1))) mod pl_sels (plane_at planes p)).

(** ** Files
    A texture of [w] x [h] texels with [faces] faces of format [f]; [P level] is
    the picture of a level. *)
Section File.
Context (f w h faces levels : Z) (ce cs ae al : list Z) (P : Z -> Z -> Z -> Z -> chunk).

Definition store_planes : list plane := planes_of f ce cs ae al.
Definition store_tables : list Z :=
  pack_items (plain_sending ++ (if zlen ce =? 0 then [] else plain_sending) ++ (if zlen ce =? 0 then [] else plain_sending) ++
              (if zlen ae =? 0 then [] else plain_sending) ++ (if zlen ae =? 0 then [] else plain_sending)).
Definition store_color_ends : list Z :=
  pack_items (plain_sending ++ plain_sending ++ color_end_items plain_sizes plain_sizes (k_color_ends (stored_contents ce cs ae al)) (zlen ce)).
Definition store_color_sels : list Z :=
  pack_items (plain_sending ++ selector_items plain_sizes (k_color_sels (stored_contents ce cs ae al)) (zlen cs)).
Definition store_alpha_ends : list Z :=
  pack_items (plain_sending ++ alpha_end_items plain_sizes (k_alpha_ends (stored_contents ce cs ae al)) (zlen ae)).
Definition store_alpha_sels : list Z :=
  pack_items (plain_sending ++ selector_items plain_sizes (k_alpha_sels (stored_contents ce cs ae al)) (zlen al / 3)).
Definition store_level (level : Z) : list Z :=
  let W := level_cols w level in let H := level_cols h level in
  pack (symbol_bits (fun _ => plain_sizes) (level_symbols store_planes (stored_level store_planes (P level) W H) W H faces)).

(** Where the sections start. *)
Definition store_head : Z := 70 + 4 * levels.
Definition o_color_ends : Z := store_head + zlen store_tables.
Definition o_color_sels : Z := o_color_ends + zlen store_color_ends.
Definition o_alpha_ends : Z := o_color_sels + zlen store_color_sels.
Definition o_alpha_sels : Z := o_alpha_ends + zlen store_alpha_ends.
Definition o_level (level : Z) : Z :=
  o_alpha_sels + zlen store_alpha_sels + zsum level (fun i => zlen (store_level i)).

Definition store_fields : list (Z * Z) :=
  [(2, 72 * 256 + 120); (2, store_head); (2, 0); (4, o_level levels); (2, 0);
   (2, w); (2, h); (1, levels); (1, faces); (1, f); (2, 0); (4, 0); (4, 0); (4, 0);
   (3, o_color_ends); (3, zlen store_color_ends); (2, zlen ce);
   (3, o_color_sels); (3, zlen store_color_sels); (2, zlen cs);
   (3, o_alpha_ends); (3, zlen store_alpha_ends); (2, zlen ae);
   (3, o_alpha_sels); (3, zlen store_alpha_sels); (2, zlen al / 3);
   (2, zlen store_tables); (3, store_head)].
Definition store : list Z :=
  fields (store_fields ++ map (fun i => (4, o_level i)) (zrange 0 levels)) ++
  store_tables ++ store_color_ends ++ store_color_sels ++ store_alpha_ends ++ store_alpha_sels ++
  flat_map store_level (zrange 0 levels).
End File.

(** What can be stored: palettes of at most 8192 entries, and on every level only
    entries that exist. *)
Definition palettes_ok (ce cs ae al : list Z) : Prop :=
  (zlen ce <= 8192 /\ Forall (fun c => 0 <= c < 2 ^ 32) ce) /\ (zlen cs <= 8192 /\ Forall (fun s => 0 <= s < 2 ^ 32) cs) /\
  (zlen ae <= 8192 /\ Forall (fun a => 0 <= a < 2 ^ 16) ae) /\
  (zlen al <= 3 * 8192 /\ zlen al mod 3 = 0 /\ Forall (fun a => 0 <= a < 2 ^ 16) al).
Definition storable (f w h faces levels : Z) (ce cs ae al : list Z) (P : Z -> Z -> Z -> Z -> chunk) : Prop :=
  planes_of f ce cs ae al <> [] /\ 1 <= w < 2 ^ 16 /\ 1 <= h < 2 ^ 16 /\ 1 <= faces < 2 ^ 8 /\ 1 <= levels <= 16 /\
  palettes_ok ce cs ae al /\
  (forall level, 0 <= level < levels ->
     all_fit (planes_of f ce cs ae al) (P level) (level_cols w level) (level_cols h level) faces) /\
  zlen (store f w h faces levels ce cs ae al P) < 2 ^ 32.

(** A picture with its own end points and selectors for every block: block [q] uses
    the entries [e p q] and [s p q] for plane [p]. *)
Definition block_chunks (e s : Z -> Z -> Z) (W H f x y : Z) : chunk :=
  let at_ (g : Z -> Z) (k : Z) :=
    let bx := 2 * x + k mod 2 in let by_ := 2 * y + k / 2 in
    if (bx <? W) && (by_ <? H) then g ((f * H + by_) * W + bx) else 0 in
  mkChunk 7 (fun p => at_ (e p)) (fun p => at_ (s p)).
