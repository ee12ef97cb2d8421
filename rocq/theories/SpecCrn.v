(** * Specification of the entropy coding of crunch files: bits, canonical
    Huffman codes, reads of symbols and raw bits. *)
From Verif Require Import Base BaseLemmas.

(** The low [n] bits of [v], most significant first. *)
Definition bits_of (n v : Z) : list bool := map (fun i => Z.testbit v (n - 1 - i)) (zrange 0 n).

(** The number written by [bs], most significant bit first. *)
Definition value (bs : list bool) : Z := fold_left (fun a b => 2 * a + Z.b2z b) bs 0.

(** The bits of a byte string. *)
Definition bit_stream (l : list Z) : list bool := flat_map (bits_of 8) l.

Definition sum (l : list Z) : Z := fold_right Z.add 0 l.

(** The share of all 16-bit words starting with a code of length [l]; length
    0 means that the symbol is not used. *)
Definition share (l : Z) : Z := if l =? 0 then 0 else 2 ^ (16 - l).

(** Code lengths of 1 to 8192 symbols satisfying Kraft's inequality. *)
Definition code_lengths (sizes : list Z) : Prop :=
  1 <= zlen sizes <= 8192 /\ Forall (fun l => 0 <= l <= 16) sizes /\ sum (map share sizes) <= 2 ^ 16.

(** Canonical codes: shorter codes come first, symbols with codes of the same
    length are in order. *)
Definition earlier (sizes : list Z) (t s : Z) : bool :=
  (znth sizes t <? znth sizes s) || ((znth sizes t =? znth sizes s) && (t <? s)).

(** First 16-bit word starting with the code of [s]. *)
Definition first_word (sizes : list Z) (s : Z) : Z :=
  sum (map (fun t => if earlier sizes t s then share (znth sizes t) else 0) (zrange 0 (zlen sizes))).

(** The canonical code of [s]. *)
Definition code (sizes : list Z) (s : Z) : list bool :=
  bits_of (znth sizes s) (first_word sizes s / 2 ^ (16 - znth sizes s)).

(** A symbol with a code. *)
Definition coded (sizes : list Z) (s : Z) : Prop := 0 <= s < zlen sizes /\ znth sizes s <> 0.

(** What a reader asks for: a symbol of an alphabet given by its code
    lengths, or a number of [n] bits. *)
Inductive item := Sym (sizes : list Z) (s : Z) | Raw (n v : Z).

(** The bits standing for an item. *)
Definition item_bits (i : item) : list bool :=
  match i with Sym sizes s => code sizes s | Raw n v => bits_of n v end.

(** Items that can be written. *)
Definition item_ok (i : item) : Prop :=
  match i with
  | Sym sizes s => code_lengths sizes /\ coded sizes s
  | Raw n v => 0 <= n <= 16 /\ 0 <= v < 2 ^ n
  end.

Definition item_value (i : item) : Z := match i with Sym _ s => s | Raw _ v => v end.
