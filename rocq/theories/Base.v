(** * Base: result monad, Rust integer arithmetic, slices and loops.
    These definitions model the Rust language constructs used by /repo/src
    (no particular file): integer arithmetic in both build modes, slice
    indexing, `for` ranges.  Everything is a total computable function. *)
From Coq Require Export String.
From Coq Require Export ZArith List Lia Bool.
Export ListNotations.
Global Open Scope Z_scope.

(** Outcome of running Rust code: a normal value, an [Err] carrying the
    `&'static str`, or a panic (index out of bounds, overflow in a checking
    build, division by zero, explicit `panic!`). *)
Inductive res (A : Type) : Type :=
| Ok (a : A)
| Err (msg : string)
| Panic.
Arguments Ok {A} a.
Arguments Err {A} msg.
Arguments Panic {A}.

Definition bind {A B} (x : res A) (f : A -> res B) : res B :=
  match x with
  | Ok a => f a
  | Err m => Err m
  | Panic => Panic
  end.

Declare Scope res_scope.
Delimit Scope res_scope with res.
Notation "'let*' x ':=' e 'in' k" := (bind e (fun x => k))
  (at level 200, x pattern, e at level 100, k at level 200, right associativity)
  : res_scope.
Global Open Scope res_scope.

(** Rust build mode: [Checked] panics on integer overflow (debug profile),
    [Wrapping] wraps around (release profile). *)
Inductive build := Checked | Wrapping.

(** Result of an arithmetic operation on the unsigned type of width [w]
    whose mathematical value is [x]. *)
Definition ua (m : build) (w x : Z) : res Z :=
  if (0 <=? x) && (x <? 2 ^ w) then Ok x
  else match m with
       | Checked => Panic
       | Wrapping => Ok (x mod 2 ^ w)
       end.

(** Two's complement value of the low [w] bits of [x] (an `as iW` cast). *)
Definition swrap (w x : Z) : Z :=
  let y := x mod 2 ^ w in if y <? 2 ^ (w - 1) then y else y - 2 ^ w.

(** Result of an arithmetic operation on the signed type of width [w]. *)
Definition ia (m : build) (w x : Z) : res Z :=
  if (- 2 ^ (w - 1) <=? x) && (x <? 2 ^ (w - 1)) then Ok x
  else match m with
       | Checked => Panic
       | Wrapping => Ok (swrap w x)
       end.

(** Shift amount for a [w]-bit operand: amounts outside 0..w-1 panic in a
    checking build and are reduced modulo [w] in a wrapping build. *)
Definition sh_amt (m : build) (w s : Z) : res Z :=
  if (0 <=? s) && (s <? w) then Ok s
  else match m with
       | Checked => Panic
       | Wrapping => Ok (s mod w)
       end.

(** `x << s` and `x >> s` on the unsigned type of width [w]. *)
Definition ushl (m : build) (w x s : Z) : res Z :=
  let* k := sh_amt m w s in Ok (Z.shiftl x k mod 2 ^ w).
Definition ushr (m : build) (w x s : Z) : res Z :=
  let* k := sh_amt m w s in Ok (Z.shiftr x k).
(** `x << s` on the signed type of width [w]; `>>` is arithmetic. *)
Definition ishl (m : build) (w x s : Z) : res Z :=
  let* k := sh_amt m w s in Ok (swrap w (Z.shiftl x k)).

(** `as u8`, `as u16`, ... truncating casts. *)
Definition u8 (x : Z) : Z := x mod 2 ^ 8.
Definition u16 (x : Z) : Z := x mod 2 ^ 16.
Definition u32 (x : Z) : Z := x mod 2 ^ 32.
Definition u64 (x : Z) : Z := x mod 2 ^ 64.

(** Slices are lists. *)
Definition zlen {A} (l : list A) : Z := Z.of_nat (length l).

(** `l[i]` *)
Definition idx {A} (l : list A) (i : Z) : res A :=
  if 0 <=? i then
    match nth_error l (Z.to_nat i) with
    | Some a => Ok a
    | None => Panic
    end
  else Panic.

Fixpoint replace_nth {A} (n : nat) (v : A) (l : list A) : list A :=
  match l, n with
  | [], _ => []
  | _ :: t, O => v :: t
  | h :: t, S n' => h :: replace_nth n' v t
  end.

(** `l[i] = v` *)
Definition upd {A} (l : list A) (i : Z) (v : A) : res (list A) :=
  if (0 <=? i) && (i <? zlen l) then Ok (replace_nth (Z.to_nat i) v l) else Panic.

(** `&l[a..b]`, `&l[a..]` *)
Definition slice {A} (l : list A) (a b : Z) : res (list A) :=
  if (0 <=? a) && (a <=? b) && (b <=? zlen l)
  then Ok (firstn (Z.to_nat (b - a)) (skipn (Z.to_nat a) l)) else Panic.
Definition slice_from {A} (l : list A) (a : Z) : res (list A) :=
  if (0 <=? a) && (a <=? zlen l) then Ok (skipn (Z.to_nat a) l) else Panic.

(** `l[a..a+src.len()].copy_from_slice(src)` *)
Definition copy_into {A} (l : list A) (a : Z) (src : list A) : res (list A) :=
  if (0 <=? a) && (a + zlen src <=? zlen l)
  then Ok (firstn (Z.to_nat a) l ++ src ++ skipn (Z.to_nat a + length src) l)
  else Panic.

(** The range `lo..hi` *)
Fixpoint zseq (lo : Z) (n : nat) : list Z :=
  match n with
  | O => []
  | S n' => lo :: zseq (lo + 1) n'
  end.
Definition zrange (lo hi : Z) : list Z := zseq lo (Z.to_nat (hi - lo)).

(** A `for` loop over a list of items, threading the mutable state [s]. *)
Fixpoint for_list {A S} (l : list A) (f : A -> S -> res S) (s : S) : res S :=
  match l with
  | [] => Ok s
  | a :: l' => let* s' := f a s in for_list l' f s'
  end.

(** `for i in lo..hi { .. }` *)
Definition for_range {S} (lo hi : Z) (f : Z -> S -> res S) (s : S) : res S :=
  for_list (zrange lo hi) f s.

(** `uN::from_le_bytes` *)
Fixpoint le_bytes (l : list Z) : Z :=
  match l with
  | [] => 0
  | b :: t => b + 256 * le_bytes t
  end.

(** `uN::from_be_bytes` *)
Definition be_bytes (l : list Z) : Z := fold_left (fun acc b => acc * 256 + b) l 0.

(** Rust's `x.div_ceil(y)` for unsigned values. *)
Definition div_ceil (x y : Z) : Z := if x mod y =? 0 then x / y else x / y + 1.

(** Well-formedness of a byte slice. *)
Definition is_byte (b : Z) : Prop := 0 <= b < 256.
Definition bytes (l : list Z) : Prop := Forall is_byte l.
Definition is_u32 (b : Z) : Prop := 0 <= b < 2 ^ 32.
