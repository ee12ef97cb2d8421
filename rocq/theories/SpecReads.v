(** * Specification of the bytes that a sequence of reads takes off a slice *)
From Verif Require Import Base SpecCrn.

Definition is_raw (i : item) : bool := match i with Raw _ _ => true | Sym _ _ => false end.

(** Reading off a slice of [size] bytes with [loaded] bits taken and [used] bits
    delivered.  A raw read takes the bytes it needs.  A symbol read takes one or
    two bytes ahead as long as fewer than 24 bits are waiting, and looks at the
    byte behind those taken.  If a raw read takes the last byte, only raw reads
    can follow; a symbol read leaves the last byte in place. *)
Fixpoint reads_through (size loaded used : Z) (l : list item) : bool :=
  match l with
  | [] => true
  | Raw n _ :: l' =>
      let loaded' := Z.max loaded (8 * ((used + n + 7) / 8)) in
      if 8 * size <=? loaded' then forallb is_raw l' else reads_through size loaded' (used + n) l'
  | Sym xs s :: l' =>
      let waiting := loaded - used in
      let loaded' := loaded + (if waiting <? 16 then 16 else if waiting <? 24 then 8 else 0) in
      if 8 * size <=? loaded' then true else reads_through size loaded' (used + zlen (code xs s)) l'
  end.
