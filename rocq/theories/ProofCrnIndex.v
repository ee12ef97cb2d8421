(** * Proofs about running palette indices. *)
From Verif Require Import Base BaseLemmas ModelCrn ModelCrunch ModelUnity.

Lemma mod_once x n : 0 < n -> 0 <= x < 2 * n -> x mod n = if n <=? x then x - n else x.
Proof.
  intros Hn Hx. destruct (Z.leb_spec n x).
  - symmetry. apply Z.mod_unique with 1; lia.
  - apply Z.mod_small. lia.
Qed.

Lemma limit_ok m x n : 0 < n <= 2 ^ 30 -> 0 <= x < 2 * n -> limit m x n = Ok (x mod n).
Proof.
  intros Hn Hx. rewrite mod_once by lia. unfold limit.
  assert (forall v, 0 <= v < 2 ^ 31 -> swrap 32 v = v) as S.
  { intros v Hv. unfold swrap. rewrite Z.mod_small by lia. destruct (Z.ltb_spec v (2 ^ (32 - 1))); lia. }
  rewrite !S by lia. rewrite ia_ok by lia. cbn [bind].
  destruct (Z.leb_spec n x) as [L|L].
  - assert (Z.shiftr (x - n) 31 = 0) as -> by (rewrite shr_div by lia; apply Z.div_small; lia).
    rewrite Z.land_0_r, Z.lor_0_l. change (Z.lnot 0) with (-1). rewrite Z.land_m1_r.
    unfold u32. rewrite Z.mod_small by lia. reflexivity.
  - assert (Z.shiftr (x - n) 31 = -1) as ->.
    { rewrite shr_div by lia. symmetry. apply Z.div_unique with (x - n + 2 ^ 31); lia. }
    change (Z.lnot (-1)) with 0. rewrite Z.land_m1_r, Z.land_0_r, Z.lor_0_r.
    unfold u32. rewrite Z.mod_small by lia. reflexivity.
Qed.

Lemma next_index_ok m msg dm n prev cd d cd' : 0 < n <= 2 ^ 30 -> 0 <= prev < n -> 0 <= d < n ->
  decode m dm cd = Ok (d, cd') -> next_index m msg dm n prev cd = Ok ((prev + d) mod n, cd').
Proof.
  intros Hn Hp Hd D. unfold next_index. rewrite D. cbn [or_err bind].
  rewrite ua_ok by lia. cbn [bind]. rewrite limit_ok by lia. reflexivity.
Qed.
Lemma unity_advance_ok m msg dm n prev cd d cd' : 0 < n <= 2 ^ 30 -> 0 <= prev < n -> 0 <= d < n ->
  decode m dm cd = Ok (d, cd') -> unity_advance m msg dm n prev cd = Ok ((prev + d) mod n, cd').
Proof.
  intros Hn Hp Hd D. unfold unity_advance. rewrite D. cbn [or_err bind].
  rewrite ua_ok by lia. cbn [bind]. rewrite mod_once by lia. destruct (n <=? prev + d); reflexivity.
Qed.

(** The codec delivers the symbols [ds] of [dm]. *)
Fixpoint delivers (m : build) (dm : model) (cd : codec) (ds : list Z) : Prop :=
  match ds with
  | [] => True
  | d :: ds' => exists cd', decode m dm cd = Ok (d, cd') /\ delivers m dm cd' ds'
  end.

(** [k] updates in a row: all indices passed through. *)
Fixpoint indices (step : Z -> codec -> res (Z * codec)) (k : nat) (prev : Z) (cd : codec) : res (list Z) :=
  match k with
  | O => Ok []
  | S k' => let* (i, cd) := step prev cd in let* l := indices step k' i cd in Ok (i :: l)
  end.
(** The sums of the deltas modulo the palette size. *)
Fixpoint sums (n acc : Z) (ds : list Z) : list Z :=
  match ds with [] => [] | d :: ds' => (acc + d) mod n :: sums n (acc + d) ds' end.

Lemma sums_shift n ds : forall a b, 0 < n -> a mod n = b mod n -> sums n a ds = sums n b ds.
Proof.
  induction ds as [|d ds IH]; intros a b Hn E; [reflexivity|]. cbn [sums].
  assert ((a + d) mod n = (b + d) mod n) as E' by (rewrite (Z.add_mod a), (Z.add_mod b), E by lia; reflexivity).
  f_equal; [exact E'|apply IH; auto].
Qed.
Lemma indices_ok m dm n (step : Z -> codec -> res (Z * codec)) : 0 < n ->
  (forall prev cd d cd', 0 <= prev < n -> 0 <= d < n -> decode m dm cd = Ok (d, cd') -> step prev cd = Ok ((prev + d) mod n, cd')) ->
  forall ds prev cd, 0 <= prev < n -> Forall (fun d => 0 <= d < n) ds -> delivers m dm cd ds ->
  indices step (length ds) prev cd = Ok (sums n prev ds) /\ Forall (fun i => 0 <= i < n) (sums n prev ds).
Proof.
  intros Hn St. induction ds as [|d ds IH]; intros prev cd Hp HF HD; [split; [reflexivity|constructor]|].
  inversion HF as [|? ? Hd HF']; subst. cbn [delivers] in HD. destruct HD as (cd' & D & HD).
  pose proof (Z.mod_pos_bound (prev + d) n Hn) as R.
  destruct (IH ((prev + d) mod n) cd' R HF' HD) as [I F].
  rewrite (sums_shift n ds ((prev + d) mod n) (prev + d)) in I, F by (auto; apply Z.mod_mod; lia).
  cbn [length indices sums]. rewrite (St prev cd d cd' Hp Hd D). cbn [bind]. rewrite I. split; [reflexivity|constructor; auto].
Qed.
