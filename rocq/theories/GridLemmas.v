(** * Loops which panic, loops over a grid of blocks *)
From Verif Require Import Base BaseLemmas ModelColor ProofDecoder.

(** A loop whose iteration number [k] panics. *)
Lemma for_range_panic {S} (I : Z -> S -> Prop) lo hi k (f : Z -> S -> res S) s :
  lo <= k < hi -> I lo s ->
  (forall i s, lo <= i < k -> I i s -> exists s', f i s = Ok s' /\ I (i + 1) s') ->
  (forall s, I k s -> f k s = Panic) ->
  for_range lo hi f s = Panic.
Proof.
  intros Hk H0 Hstep Hp.
  destruct (for_range_inv I lo k f s) as (s' & E & HI); [lia|auto|auto|].
  assert (zrange lo hi = zrange lo k ++ zrange k hi) as R.
  { unfold zrange. replace (Z.to_nat (hi - lo)) with (Z.to_nat (k - lo) + Z.to_nat (hi - k))%nat by lia.
    assert (forall a b l, zseq l (a + b) = zseq l a ++ zseq (l + Z.of_nat a) b) as K.
    { induction a as [|a IH]; intros b l; cbn [Nat.add zseq app]; [f_equal; lia|].
      rewrite IH. replace (l + 1 + Z.of_nat a) with (l + Z.of_nat (Datatypes.S a)) by lia. reflexivity. }
    rewrite K. do 2 f_equal. lia. }
  unfold for_range in *. rewrite R, for_list_app, E. cbn [bind].
  rewrite zrange_cons by lia. cbn [for_list]. rewrite Hp by auto. reflexivity.
Qed.

(** Two nested loops over all blocks, row by row. *)
Lemma grid_inv {S} (P : Z -> S -> Prop) nbx nby (body : Z -> Z -> S -> res S) (pre : Z -> S -> res S) s :
  0 <= nbx -> 0 <= nby -> P 0 s ->
  (forall by_ bx s, 0 <= by_ < nby -> 0 <= bx < nbx -> P (by_ * nbx + bx) s ->
     exists s', body by_ bx s = Ok s' /\ P (by_ * nbx + bx + 1) s') ->
  (forall by_ s, 0 <= by_ < nby -> pre by_ s = for_range 0 nbx (body by_) s) ->
  exists s', for_range 0 nby pre s = Ok s' /\ P (nby * nbx) s'.
Proof.
  intros Hx Hy H0 Hstep Hpre.
  apply (for_range_inv (fun y => P (y * nbx))); [lia|exact H0|].
  intros by_ st Hby HP. rewrite Hpre by auto.
  destruct (for_range_inv (fun x => P (by_ * nbx + x)) 0 nbx (body by_) st) as (st' & E & HP').
  - lia.
  - rewrite Z.add_0_r. auto.
  - intros bx s' Hbx HP'. destruct (Hstep by_ bx s' Hby Hbx HP') as (s'' & E & HP''). exists s''. split; [auto|].
    replace (by_ * nbx + (bx + 1)) with (by_ * nbx + bx + 1) by lia. auto.
  - exists st'. split; [auto|]. replace ((by_ + 1) * nbx) with (by_ * nbx + nbx) by ring. auto.
Qed.

(** What an image looks like after storing the first [k] blocks. *)
Definition stored (bw bh w h nbx : Z) (tex : Z -> Z -> Z -> Z) (image : list Z) (k : Z) (im : list Z) : Prop :=
  zlen im = zlen image /\
  forall j, 0 <= j < zlen image ->
    znth im j =
    if (j <? w * h) && ((j / w) / bh * nbx + (j mod w) / bw <? k) then
      tex ((j mod w) / bw) ((j / w) / bh) (((j / w) mod bh) * bw + (j mod w) mod bw)
    else znth image j.

Lemma stored_0 bw bh w h nbx tex image : 0 < bw -> 0 < bh -> 0 <= nbx -> 0 <= h -> 0 <= w -> stored bw bh w h nbx tex image 0 image.
Proof.
  intros. split; [auto|]. intros j Hj. destruct (Z.ltb_spec j (w * h)); cbn [andb]; auto.
  assert (0 < w) by nia.
  assert (0 <= j mod w / bw) by (apply Z.div_pos; [apply Z.mod_pos_bound|]; lia).
  assert (0 <= j / w / bh) by (apply Z.div_pos; [apply Z.div_pos|]; lia).
  destruct (Z.ltb_spec (j / w / bh * nbx + j mod w / bw) 0); auto. nia.
Qed.

Lemma stored_step m bw bh w h tex image bx by_ im buf :
  0 < bw < 2 ^ 32 -> 0 < bh < 2 ^ 32 -> 0 <= w -> 0 <= h -> 4 * zlen image < 2 ^ 63 -> w * h <= zlen image ->
  0 <= bx < div_ceil w bw -> 0 <= by_ < div_ceil h bh ->
  bw * bh <= zlen buf -> (forall t, 0 <= t < bw * bh -> znth buf t = tex bx by_ t) ->
  stored bw bh w h (div_ceil w bw) tex image (by_ * div_ceil w bw + bx) im ->
  exists im', copy_block_buffer m bx by_ w h bw bh buf im = Ok im' /\
    stored bw bh w h (div_ceil w bw) tex image (by_ * div_ceil w bw + bx + 1) im'.
Proof.
  intros Hbw Hbh Hw Hh Hfit Himg Hbx Hby Hbuf Htex (Hlen & Hnth).
  set (nbx := div_ceil w bw) in *. set (nby := div_ceil h bh) in *.
  destruct (copy_block_buffer_spec m bx by_ w h bw bh buf im)
    as (im' & Ecp & Hlen' & Hnth'); try (fold nbx; fold nby; lia).
  exists im'. split; [exact Ecp|]. split; [lia|].
  intros j Hj. rewrite Hnth' by lia. rewrite Hnth by lia.
  destruct (Z.ltb_spec j (w * h)); cbn [andb]; auto.
  assert (0 < w) by nia.
  set (qx := j mod w / bw). set (qy := j / w / bh).
  assert (0 <= qx < nbx) by (apply div_lt_ceil; [apply Z.mod_pos_bound|]; lia).
  assert (0 <= j / w < h) by (split; [apply Z.div_pos; lia|apply Z.div_lt_upper_bound; lia]).
  assert (0 <= qy < nby) by (apply div_lt_ceil; lia).
  destruct (Z.eqb_spec qx bx) as [Ex|Ex]; cbn [andb].
  - destruct (Z.eqb_spec qy by_) as [Ey|Ey]; cbn [andb].
    + rewrite Ex, Ey.
      destruct (Z.ltb_spec (by_ * nbx + bx) (by_ * nbx + bx + 1)); [|lia].
      rewrite Htex; [reflexivity|].
      pose proof (Z.mod_pos_bound (j / w) bh ltac:(lia)).
      pose proof (Z.mod_pos_bound (j mod w) bw ltac:(lia)).
      split; [apply Z.add_nonneg_nonneg; [apply Z.mul_nonneg_nonneg|]; lia|].
      assert (((j / w) mod bh + 1) * bw <= bh * bw) by (apply Z.mul_le_mono_nonneg_r; lia). lia.
    + destruct (Z.ltb_spec (qy * nbx + qx) (by_ * nbx + bx)),
        (Z.ltb_spec (qy * nbx + qx) (by_ * nbx + bx + 1)); auto; exfalso; try lia.
      assert (qy + 1 <= by_ \/ by_ + 1 <= qy) as [Hc|Hc] by lia;
        apply Z.mul_le_mono_nonneg_r with (p := nbx) in Hc; lia.
  - destruct (Z.ltb_spec (qy * nbx + qx) (by_ * nbx + bx)),
      (Z.ltb_spec (qy * nbx + qx) (by_ * nbx + bx + 1)); auto; exfalso; try lia.
    assert (qy + 1 <= by_ \/ by_ + 1 <= qy \/ qy = by_) as [Hc|[Hc|Hc]] by lia;
      [| |subst; lia]; apply Z.mul_le_mono_nonneg_r with (p := nbx) in Hc; lia.
Qed.

Lemma stored_all bw bh w h tex image im :
  0 < bw -> 0 < bh -> 0 <= w -> 0 <= h -> w * h <= zlen image ->
  stored bw bh w h (div_ceil w bw) tex image (div_ceil h bh * div_ceil w bw) im ->
  zlen im = zlen image /\
  (forall x y, 0 <= x < w -> 0 <= y < h ->
     znth im (y * w + x) = tex (x / bw) (y / bh) ((y mod bh) * bw + x mod bw)) /\
  (forall j, w * h <= j < zlen image -> znth im j = znth image j).
Proof.
  intros Hbw Hbh Hw Hh Himg (Hlen & Hnth). split; [auto|]. split.
  - intros x y Hx Hy.
    assert (0 <= y * w) by (apply Z.mul_nonneg_nonneg; lia).
    assert ((y + 1) * w <= h * w) by (apply Z.mul_le_mono_nonneg_r; lia).
    rewrite Hnth by lia.
    destruct (Z.ltb_spec (y * w + x) (w * h)); [|lia]. cbn [andb].
    assert ((y * w + x) / w = y) as -> by (symmetry; apply Z.div_unique with x; lia).
    assert ((y * w + x) mod w = x) as -> by (symmetry; apply Z.mod_unique with y; lia).
    assert (0 <= x / bw < div_ceil w bw) by (apply div_lt_ceil; lia).
    assert (0 <= y / bh < div_ceil h bh) by (apply div_lt_ceil; lia).
    destruct (Z.ltb_spec (y / bh * div_ceil w bw + x / bw) (div_ceil h bh * div_ceil w bw)); auto.
    exfalso. assert ((y / bh + 1) * div_ceil w bw <= div_ceil h bh * div_ceil w bw) by (apply Z.mul_le_mono_nonneg_r; lia). lia.
  - intros j Hj. assert (0 <= w * h) by (apply Z.mul_nonneg_nonneg; lia).
    rewrite Hnth by lia. destruct (Z.ltb_spec j (w * h)); [lia|auto].
Qed.
