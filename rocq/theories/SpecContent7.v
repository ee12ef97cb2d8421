(** * Specification: which pictures BC7 can store.
    As in [SpecContent], the contents of a block are described without bits. *)
From Verif Require Import Base BaseLemmas SpecBptc SpecBc SpecBc7 SpecContent.

(** ** What blocks are made of
    The mode gives the numbers of subsets ([NS]) and the sizes ([CB], [AB], ...).
    [v c e] is end point [e] of channel [c], end points 2s and 2s+1 belong to
    subset [s]; [p e] is its lowest bit in the modes with such bits.  [i] and [j]
    choose the weights of the texels. *)
Definition end_value (mode : Z) (v : Z -> Z -> Z) (p : Z -> Z) (c e : Z) : Z :=
  let n := if c =? 3 then AB mode else CB mode in
  if (c =? 3) && (AB mode =? 0) then 255
  else if (EPB mode =? 1) || (SPB mode =? 1) then expand8 (n + 1) (2 * v c e + p e)
  else expand8 n (v c e).
(** Modes with two weights per texel have one for the colour and one for alpha. *)
Definition chosen_weight (mode isel : Z) (i j : Z -> Z) (c t : Z) : Z :=
  let one := znth (weights (IB mode)) (i t) in
  let two := if IB2 mode =? 0 then one else znth (weights (IB2 mode)) (j t) in
  if eqb (c =? 3) (isel =? 1) then one else two.
Definition mixed (mode part isel : Z) (v : Z -> Z -> Z) (p i j : Z -> Z) (c t : Z) : Z :=
  let s := subset mode part t in
  lerp64 (end_value mode v p c (2 * s)) (end_value mode v p c (2 * s + 1)) (chosen_weight mode isel i j c t).
(** Alpha may change places with one of the colours. *)
Definition turned_channels (rot : Z) (ch : Z -> Z) : Z :=
  let from c := if rot =? 0 then c else if c =? 3 then rot - 1 else if c =? rot - 1 then 3 else c in
  rgba (ch (from 0)) (ch (from 1)) (ch (from 2)) (ch (from 3)).

Definition bc7_ends (mode : Z) (v : Z -> Z -> Z) (p : Z -> Z) : Prop :=
  (forall c e, 0 <= c < 3 -> 0 <= e < 2 * NS mode -> 0 <= v c e < 2 ^ CB mode) /\
  (forall e, 0 <= e < 2 * NS mode -> 0 <= v 3 e < 2 ^ AB mode) /\
  (forall e, 0 <= e < 2 * NS mode -> 0 <= p e < 2) /\
  (SPB mode = 1 -> forall s, 0 <= s < NS mode -> p (2 * s) = p (2 * s + 1)).
(** All weights may be chosen for all texels.  Blocks of the reserved mode are transparent black. *)
Definition bc7_pattern (f : Z -> Z) : Prop :=
  (forall t, 0 <= t < 16 -> f t = 0) \/
  exists mode part rot isel v p i j, 0 <= mode < 8 /\ 0 <= part < 2 ^ PB mode /\ 0 <= rot < 2 ^ RB mode /\ 0 <= isel < 2 ^ ISB mode /\
    bc7_ends mode v p /\ choice_below (2 ^ IB mode) i /\ choice_below (2 ^ IB2 mode) j /\
    forall t, 0 <= t < 16 -> f t = turned_channels rot (fun c => mixed mode part isel v p i j c t).
