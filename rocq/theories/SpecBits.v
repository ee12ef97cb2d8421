(** * Bit fields of byte strings *)
From Verif Require Import Base.

(** The little-endian bit field [p, p+n) of [data]: bit [i] of the value is bit
    [(p+i) mod 8] of byte [(p+i)/8]. *)
Definition bits (data : list Z) (p n : Z) : Z := le_bytes data / 2 ^ p mod 2 ^ n.
