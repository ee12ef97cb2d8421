(** * Specification: crunch files whose levels can be corrupted without harm. *)
From Verif Require Import Base BaseLemmas ModelCrn SpecCrn SpecCrnHeader SpecCrnLevel SpecCrnFile.

(** A code for moves in a palette of [n] entries: it has a code word, and no
    symbol is greater than [n]. *)
Definition moves_in (n : Z) (sizes : list Z) : Prop :=
  1 <= n /\ (exists s, coded sizes s) /\ forall s, coded sizes s -> s <= n.

(** Every code used by a level has a code word, and moves in its palette. *)
Definition robust (planes : list plane) (sizes : kind -> list Z) : Prop :=
  (exists s, coded (sizes Chunks) s) /\
  forall p, In p planes -> moves_in (pl_ends p) (sizes (pl_end p)) /\ moves_in (pl_sels p) (sizes (pl_sel p)).

(** A code not using up all words of 16 bits: some words stand for nothing. *)
Definition incomplete (sizes : list Z) : Prop := sum (map share sizes) < 2 ^ 16.

(** What is reported when such a word is read. *)
Definition lost_in (f : Z) : string :=
  if f =? 0 then "Failed to decord DXT1 Texture"%string
  else if f =? 9 then "Failed to decord DXT5A Texture"%string
  else if (f =? 7) || (f =? 8) then "Failed to decord DXN Texture"%string
  else "Failed to decord DXT5 Texture"%string.

(** Two files of the same length with the same first [n] bytes. *)
Definition same_below (n : Z) (data data' : list Z) : Prop :=
  zlen data' = zlen data /\ forall i, 0 <= i < n -> znth data' i = znth data i.
(** Everything but the levels lies in the first [n] bytes. *)
Definition stored_below (n : Z) (data : list Z) : Prop :=
  let h := header_at data in
  let below (p : palette) := p_ofs p + p_size p <= n in
  header_room data <= n /\ h_tables_ofs h + h_tables_size h <= n /\
  (has_color data -> below (h_color_endpoints h) /\ below (h_color_selectors h)) /\
  (has_alpha data -> below (h_alpha_endpoints h) /\ below (h_alpha_selectors h)).
