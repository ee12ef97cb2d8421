(** * Model of the uncalled function `__builtin_clz` of src/f16.rs *)
From Verif Require Import Base.

(** src/f16.rs lines 33-42: the `loop`, which is left at the latest when [i] is
    32; [Panic] when [fuel] rounds do not suffice. *)
Fixpoint clz_loop (m : build) (fuel : nat) (ret x i : Z) : res Z :=
  match fuel with
  | O => Panic
  | S fuel =>
      if negb (Z.land x 0x80000000 =? 0) || (i =? 32) then Ok ret
      else
        let* ret := ua m 32 (ret + 1) in
        let* x := ushl m 32 x 1 in
        let* i := ia m 32 (i + 1) in
        clz_loop m fuel ret x i
  end.
(** src/f16.rs lines 28-44: `__builtin_clz`. *)
Definition builtin_clz (m : build) (x : Z) : res Z := clz_loop m 33 0 x 0.

(** src/f16.rs lines 33-42: one round of the `loop`, without any bound; state:
    `ret`, `x`, `i` (see [ModelLoops]). *)
Definition clz_body (m : build) (st : Z * Z * Z) : res (Z * Z * Z + Z) :=
  let '(ret, x, i) := st in
  if negb (Z.land x 0x80000000 =? 0) || (i =? 32) then Ok (inr ret)
  else
    let* ret := ua m 32 (ret + 1) in
    let* x := ushl m 32 x 1 in
    let* i := ia m 32 (i + 1) in
    Ok (inl (ret, x, i)).
