(** * Specification: which code lengths the Huffman tables accept. *)
From Verif Require Import Base BaseLemmas SpecCrn.

(** Any code lengths the file format can express, also incomplete and
    oversubscribed codes and codes without a single code word. *)
Definition any_lengths (sizes : list Z) : Prop :=
  1 <= zlen sizes <= 8192 /\ Forall (fun l => 0 <= l <= 16) sizes.

(** The share of all 16-bit words taken by the codes of at most [n] bits. *)
Definition short_share (n : Z) (sizes : list Z) : Z :=
  sum (map (fun l => if l <=? n then share l else 0) sizes).

(** Bits looked up at once in an alphabet of [n] symbols. *)
Definition table_bits (n : Z) : Z := if 16 <? n then Z.min 11 (1 + Z.log2_up n) else 0.

(** Oversubscribed already by the codes of the lookup table, which is only
    built if some code is shorter than its index. *)
Definition overfull (sizes : list Z) : Prop :=
  Exists (fun l => 0 < l < table_bits (zlen sizes)) sizes /\
  2 ^ 16 < short_share (table_bits (zlen sizes)) sizes.

(** The 16-bit word [w] starts with the code of [s]. *)
Definition starts_with (sizes : list Z) (w s : Z) : Prop :=
  coded sizes s /\ first_word sizes s <= w < first_word sizes s + share (znth sizes s).
