(** * Proofs about copy_block_buffer and block_decoder *)
From Verif Require Import Base BaseLemmas ModelColor.

Lemma znth_copy (l src : list Z) a j : 0 <= a -> a + zlen src <= zlen l -> 0 <= j ->
  znth (firstn (Z.to_nat a) l ++ src ++ skipn (Z.to_nat a + length src) l) j =
  if (a <=? j) && (j <? a + zlen src) then znth src (j - a) else znth l j.
Proof.
  intros Ha Hl Hj. pose proof (zlen_nonneg src).
  assert (zlen (firstn (Z.to_nat a) l) = a) as L1 by (rewrite zlen_firstn; lia).
  destruct (Z.leb_spec a j); simpl.
  - rewrite znth_app2 by lia. rewrite L1.
    destruct (Z.ltb_spec j (a + zlen src)).
    + rewrite znth_app1 by lia; auto.
    + rewrite znth_app2 by lia. rewrite znth_skipn by lia. f_equal; unfold zlen in *; lia.
  - rewrite znth_app1 by lia. rewrite znth_firstn by lia; auto.
Qed.

Lemma div_ceil_eq x y : 0 <= x -> 0 < y -> div_ceil x y = (x + y - 1) / y.
Proof. intros; unfold div_ceil. destruct (Z.eqb_spec (x mod y) 0).
  - apply Z.div_unique with (y - 1); [lia|]. pose proof (Z.div_mod x y); nia.
  - pose proof (Z.mod_pos_bound x y ltac:(lia)).
    apply Z.div_unique with (x mod y - 1); [lia|]. pose proof (Z.div_mod x y); nia.
Qed.

Lemma div_ceil_bounds x y : 0 <= x -> 0 < y ->
  0 <= div_ceil x y /\ (div_ceil x y - 1) * y < x <= div_ceil x y * y \/ x = 0 /\ div_ceil x y = 0.
Proof.
  intros. rewrite div_ceil_eq by auto.
  pose proof (Z.div_mod (x + y - 1) y ltac:(lia)). pose proof (Z.mod_pos_bound (x + y - 1) y ltac:(lia)).
  assert (0 <= (x + y - 1) / y) by (apply Z.div_pos; lia).
  left; nia.
Qed.

Lemma div_ceil_gt x y q : 0 <= x -> 0 < y -> 0 <= q < div_ceil x y -> q * y < x.
Proof. intros. destruct (div_ceil_bounds x y); auto; nia. Qed.

Lemma div_lt_ceil x y i : 0 <= i < x -> 0 < y -> 0 <= i / y < div_ceil x y.
Proof.
  intros. split; [apply Z.div_pos; lia|].
  destruct (div_ceil_bounds x y) as [|[]]; try lia.
  apply Z.div_lt_upper_bound; nia.
Qed.

Lemma div_bounds i y : 0 < y -> (i / y) * y <= i < (i / y + 1) * y.
Proof. intros. pose proof (Z.div_mod i y). pose proof (Z.mod_pos_bound i y). nia. Qed.

Section Copy.
Context (m : build).

Theorem copy_block_buffer_spec bx by_ w h bw bh buffer image :
  0 < bw -> 0 < bh -> 0 <= w -> 0 <= h ->
  0 <= bx < div_ceil w bw -> 0 <= by_ < div_ceil h bh ->
  bw * bh <= zlen buffer -> w * h <= zlen image ->
  4 * zlen image < 2 ^ 63 -> bw < 2 ^ 32 -> bh < 2 ^ 32 ->
  exists image',
    copy_block_buffer m bx by_ w h bw bh buffer image = Ok image' /\
    zlen image' = zlen image /\
    forall j, 0 <= j < zlen image ->
      znth image' j =
      if (j <? w * h) && ((j mod w) / bw =? bx) && ((j / w) / bh =? by_)
      then znth buffer (((j / w) mod bh) * bw + (j mod w) mod bw) else znth image j.
Proof.
  intros Hbw Hbh Hw Hh Hbx Hby Hbuf Himg Hfit Hbw' Hbh'.
  pose proof (div_ceil_gt w bw bx ltac:(lia) ltac:(lia) ltac:(lia)) as Xlt.
  pose proof (div_ceil_gt h bh by_ ltac:(lia) ltac:(lia) ltac:(lia)) as Ylt.
  assert (0 < w) by nia. assert (0 < h) by nia.
  assert (w <= w * h) by nia. assert (h <= w * h) by nia.
  assert (w < 2 ^ 62 /\ h < 2 ^ 62) as [Wb Hb] by lia.
  assert (bx < 2 ^ 62) by nia. assert (by_ < 2 ^ 62) by nia.
  assert (bh * bw < 2 ^ 32 * 2 ^ 32) by (apply Z.mul_lt_mono_nonneg; lia).
  unfold copy_block_buffer.
  rewrite ua_ok by nia; cbn [bind].
  rewrite ua_ok by nia; cbn [bind].
  rewrite ua_ok by nia; cbn [bind].
  set (cw := if w <? bw * (bx + 1) then w - bw * bx else bw).
  assert (0 < cw <= bw) as Hcw by (unfold cw; destruct (Z.ltb_spec w (bw * (bx + 1))); nia).
  assert (bw * bx + cw <= w) as Hcw2 by (unfold cw; destruct (Z.ltb_spec w (bw * (bx + 1))); nia).
  assert (cw = bw \/ bw * bx + cw = w) as Hcw3 by (unfold cw; destruct (Z.ltb_spec w (bw * (bx + 1))); nia).
  replace (if w <? bw * (bx + 1) then ua m 64 (w - bw * bx) else Ok bw) with (@Ok Z cw).
  2:{ unfold cw; destruct (Z.ltb_spec w (bw * (bx + 1))); auto. rewrite ua_ok by nia; auto. }
  cbn [bind].
  rewrite ua_ok by nia; cbn [bind].
  rewrite ua_ok by nia; cbn [bind].
  rewrite ua_ok by nia; cbn [bind].
  set (ch := if h <? bh * (by_ + 1) then h - by_ * bh else bh).
  assert (0 < ch <= bh) as Hch by (unfold ch; destruct (Z.ltb_spec h (bh * (by_ + 1))); nia).
  assert (bh * by_ + ch <= h) as Hch2 by (unfold ch; destruct (Z.ltb_spec h (bh * (by_ + 1))); nia).
  assert (ch = bh \/ bh * by_ + ch = h) as Hch3 by (unfold ch; destruct (Z.ltb_spec h (bh * (by_ + 1))); nia).
  replace (if h <? bh * (by_ + 1) then ua m 64 (h - by_ * bh) else Ok bh) with (@Ok Z ch).
  2:{ unfold ch; destruct (Z.ltb_spec h (bh * (by_ + 1))); auto. rewrite ua_ok by nia; auto. }
  cbn [bind].
  rewrite ua_ok by nia; cbn [bind].
  clearbody cw ch.
  set (I := fun y (st : list Z * Z) =>
     let '(im, bo) := st in bo = (y - by_ * bh) * bw /\ zlen im = zlen image /\
     forall j, 0 <= j < zlen image ->
       znth im j =
       if (bw * bx <=? j mod w) && (j mod w <? bw * bx + cw) && (by_ * bh <=? j / w) && (j / w <? y)
       then znth buffer ((j / w - by_ * bh) * bw + (j mod w - bw * bx)) else znth image j).
  match goal with |- context [for_range ?a ?b ?f ?s] =>
    destruct (for_range_inv I a b f s) as ([im bo] & E & _ & Hlen & Hnth) end.
  - lia.
  - unfold I; split; [lia|]; split; [auto|]. intros j Hj.
    destruct (Z.leb_spec (by_ * bh) (j / w)), (Z.ltb_spec (j / w) (by_ * bh)); try lia;
      rewrite ?andb_false_r; auto.
  - intros y [im bo] Hy (-> & Hlen & Hnth).
    assert (0 <= by_ * bh) by (apply Z.mul_nonneg_nonneg; lia).
    assert (0 <= bw * bx) by (apply Z.mul_nonneg_nonneg; lia).
    assert (0 <= y * w) by (apply Z.mul_nonneg_nonneg; lia).
    assert (y * w + w <= w * h).
    { replace (y * w + w) with (w * (y + 1)) by ring. apply Z.mul_le_mono_nonneg_l; lia. }
    rewrite ua_ok by lia; cbn [bind].
    rewrite ua_ok by lia; cbn [bind].
    rewrite ua_ok by lia; cbn [bind].
    assert (0 <= (y - by_ * bh) * bw) by (apply Z.mul_nonneg_nonneg; lia).
    assert ((y - by_ * bh) * bw + bw <= bh * bw).
    { replace ((y - by_ * bh) * bw + bw) with ((y - by_ * bh + 1) * bw) by ring.
      apply Z.mul_le_mono_nonneg_r; lia. }
    rewrite ua_ok by lia; cbn [bind].
    rewrite slice_ok by lia; cbn [bind].
    unfold copy_slice. rewrite slice_ok by lia; cbn [bind].
    set (src := firstn _ (skipn _ buffer)).
    assert (zlen src = cw) as Lsrc by (unfold src; rewrite zlen_firstn, zlen_skipn; lia).
    rewrite zlen_firstn, zlen_skipn.
    match goal with |- context [?a =? ?b] => destruct (Z.eqb_spec a b) as [_|Hne] end.
    2:{ exfalso; apply Hne; lia. }
    rewrite copy_into_ok by lia; cbn [bind].
    rewrite ua_ok by lia; cbn [bind].
    eexists; split; [reflexivity|]. split; [lia|]. split.
    { rewrite !zlen_app, zlen_firstn, zlen_skipn, Nat2Z.inj_add. fold (zlen src). lia. }
    intros j Hj. rewrite znth_copy by lia. rewrite Lsrc, Hnth by auto.
    pose proof (Z.div_mod j w ltac:(lia)) as DM. pose proof (Z.mod_pos_bound j w ltac:(lia)) as MB.
    set (q := j / w) in *. set (r := j mod w) in *.
    assert ((y * w + bw * bx <=? j) && (j <? y * w + bw * bx + cw) =
            (q =? y) && ((bw * bx <=? r) && (r <? bw * bx + cw))) as ->.
    { destruct (Z.eqb_spec q y) as [->|Hq]; cbn [andb].
      - f_equal; apply eq_true_iff_eq; rewrite ?Z.leb_le, ?Z.ltb_lt; lia.
      - apply andb_false_iff. rewrite Z.leb_gt, Z.ltb_ge.
        assert (q + 1 <= y \/ y + 1 <= q) as [Hc|Hc] by lia; [left|right].
        + apply Z.mul_le_mono_nonneg_r with (p := w) in Hc; lia.
        + apply Z.mul_le_mono_nonneg_r with (p := w) in Hc; lia. }
    destruct (Z.leb_spec (bw * bx) r), (Z.ltb_spec r (bw * bx + cw)); cbn [andb];
      rewrite ?andb_false_r; auto.
    rewrite andb_true_r.
    destruct (Z.eqb_spec q y) as [Eq|Hq].
    + destruct (Z.leb_spec (by_ * bh) q), (Z.ltb_spec q (y + 1)); cbn [andb]; try lia.
      unfold src. rewrite znth_firstn by lia. rewrite znth_skipn by lia. f_equal; lia.
    + destruct (Z.ltb_spec q y), (Z.ltb_spec q (y + 1)); auto; lia.
  - rewrite E; cbn [bind]. exists im; split; [auto|]. split; [auto|].
    intros j Hj. rewrite Hnth by auto.
    pose proof (Z.div_mod j w ltac:(lia)) as DM. pose proof (Z.mod_pos_bound j w ltac:(lia)) as MB.
    pose proof (div_bounds (j mod w) bw Hbw) as DX.
    pose proof (div_bounds (j / w) bh Hbh) as DY.
    assert (0 <= j / w) by (apply Z.div_pos; lia).
    set (qx := j mod w / bw) in *. set (qy := j / w / bh) in *.
    destruct (Z.ltb_spec j (w * h)).
    + assert (j / w < h) by (apply Z.div_lt_upper_bound; lia).
      destruct (Z.eqb_spec qx bx) as [Ex|Ex]; cbn [andb].
      * rewrite Ex in DX. destruct (Z.eqb_spec qy by_) as [Ey|Ey]; cbn [andb].
        -- rewrite Ey in DY.
           destruct (Z.leb_spec (bw * bx) (j mod w)), (Z.ltb_spec (j mod w) (bw * bx + cw)),
             (Z.leb_spec (by_ * bh) (j / w)), (Z.ltb_spec (j / w) (by_ * bh + ch)); cbn [andb]; try lia.
           f_equal. rewrite (Z.mod_eq (j / w)), (Z.mod_eq (j mod w)) by lia.
           fold qx qy. rewrite Ex, Ey. ring.
        -- destruct (Z.leb_spec (by_ * bh) (j / w)), (Z.ltb_spec (j / w) (by_ * bh + ch));
             rewrite ?andb_false_r; auto; exfalso.
           assert (qy + 1 <= by_ \/ by_ + 1 <= qy) as [Hc|Hc] by lia;
             apply Z.mul_le_mono_nonneg_r with (p := bh) in Hc; lia.
      * destruct (Z.leb_spec (bw * bx) (j mod w)), (Z.ltb_spec (j mod w) (bw * bx + cw));
          cbn [andb]; auto; exfalso.
        assert (qx + 1 <= bx \/ bx + 1 <= qx) as [Hc|Hc] by lia;
             apply Z.mul_le_mono_nonneg_r with (p := bw) in Hc; lia.
    + cbn [andb]. destruct (Z.ltb_spec (j / w) (by_ * bh + ch)); rewrite ?andb_false_r; auto.
      exfalso. assert (j / w + 1 <= h) as Hc by lia.
      apply Z.mul_le_mono_nonneg_r with (p := w) in Hc; lia.
Qed.

End Copy.

From Verif Require Import SpecImage.

(** A block function that, on every block and every scratch buffer satisfying
    the invariant [I], produces the texels [tex]. *)
Definition implements (bs raw : Z) (bd : list Z -> list Z -> res (list Z))
    (I : list Z -> Prop) (tex : list Z -> Z -> Z) : Prop :=
  I (repeat (color 0 0 0 255) (Z.to_nat bs)) /\
  forall data buf, bytes data -> raw <= zlen data -> I buf ->
    exists buf', bd data buf = Ok buf' /\ I buf' /\ zlen buf' = bs /\
      forall t, 0 <= t < bs -> znth buf' t = tex (firstn (Z.to_nat raw) data) t.

Section Decoder.
Context (m : build) (bw bh raw : Z) (bd : list Z -> list Z -> res (list Z))
  (I : list Z -> Prop) (tex : list Z -> Z -> Z).
Context (Hbw : 0 < bw < 2 ^ 32) (Hbh : 0 < bh < 2 ^ 32) (Hraw : 0 < raw)
  (Himp : implements (bw * bh) raw bd I tex).

Lemma block_decoder_loop data w h image :
  bytes data -> 0 <= w -> 0 <= h -> 4 * zlen image < 2 ^ 63 ->
  div_ceil w bw * div_ceil h bh * raw < 2 ^ 64 ->
  div_ceil w bw * div_ceil h bh * raw <= zlen data -> w * h <= zlen image ->
  exists image', block_decoder m bw bh raw bd data w h image = Ok (Done, image') /\
    zlen image' = zlen image /\
    forall j, 0 <= j < zlen image ->
      znth image' j =
      if j <? w * h then
        tex (block_bytes raw ((j / w) / bh * div_ceil w bw + (j mod w) / bw) data)
            (((j / w) mod bh) * bw + (j mod w) mod bw)
      else znth image j.
Proof.
  intros Hd Hw Hh Hfit Hov Hdata Himg.
  set (nbx := div_ceil w bw) in *. set (nby := div_ceil h bh) in *.
  assert (0 <= nbx) by (unfold nbx; destruct (div_ceil_bounds w bw); lia).
  assert (0 <= nby) by (unfold nby; destruct (div_ceil_bounds h bh); lia).
  assert (0 <= nbx * nby) by (apply Z.mul_nonneg_nonneg; auto).
  unfold block_decoder. fold nbx nby.
  rewrite ua_ok by nia; cbn [bind].
  rewrite ua_ok by nia; cbn [bind].
  destruct (Z.ltb_spec (zlen data) (nbx * nby * raw)); [lia|].
  rewrite ua_ok by (split; [apply Z.mul_nonneg_nonneg|]; lia); cbn [bind].
  destruct (Z.ltb_spec (zlen image) (w * h)); [lia|].
  set (P := fun k (st : list Z * list Z * Z) =>
     let '(bf, im, off) := st in
     I bf /\ off = raw * k /\ zlen im = zlen image /\
     forall j, 0 <= j < zlen image ->
      znth im j =
      if (j <? w * h) && ((j / w) / bh * nbx + (j mod w) / bw <? k) then
        tex (block_bytes raw ((j / w) / bh * nbx + (j mod w) / bw) data)
            (((j / w) mod bh) * bw + (j mod w) mod bw)
      else znth image j).
  match goal with |- context [for_range ?a ?b ?f ?s] =>
    destruct (for_range_inv (fun y => P (y * nbx)) a b f s) as ([[bf im] off] & E & HI & Hoff & Hlen & Hnth) end.
  - lia.
  - destruct Himp as [HI0 _]. unfold P. split; [exact HI0|]. split; [lia|]. split; [auto|].
    intros j Hj. destruct (Z.ltb_spec j (w * h)); cbn [andb]; auto.
    assert (0 < w) by nia.
    assert (0 <= j mod w / bw) by (apply Z.div_pos; [apply Z.mod_pos_bound|]; lia).
    assert (0 <= j / w / bh) by (apply Z.div_pos; [apply Z.div_pos|]; lia).
    destruct (Z.ltb_spec (j / w / bh * nbx + j mod w / bw) (0 * nbx)); auto. nia.
  - intros by_ st Hby HP.
    match goal with |- context [for_range ?a ?b ?f ?s] =>
      destruct (for_range_inv (fun x => P (by_ * nbx + x)) a b f s) as (st' & E & HP') end.
    + lia.
    + rewrite Z.add_0_r; auto.
    + intros bx [[bf im] off] Hbx (HI & -> & Hlen & Hnth).
      assert (0 <= by_ * nbx) by (apply Z.mul_nonneg_nonneg; lia).
      assert (by_ * nbx + bx + 1 <= nbx * nby).
      { assert ((by_ + 1) * nbx <= nby * nbx) by (apply Z.mul_le_mono_nonneg_r; lia). lia. }
      assert (raw * (by_ * nbx + bx + 1) <= raw * (nbx * nby)) by (apply Z.mul_le_mono_nonneg_l; lia).
      assert (0 <= raw * (by_ * nbx + bx)) by (apply Z.mul_nonneg_nonneg; lia).
      rewrite slice_from_ok by lia; cbn [bind].
      destruct Himp as [_ Hstep].
      set (d := skipn _ data).
      destruct (Hstep d bf) as (bf' & Ebd & HI' & Hbs & Htex); auto.
      { apply bytes_skipn; auto. }
      { unfold d; rewrite zlen_skipn; lia. }
      rewrite Ebd; cbn [bind].
      destruct (copy_block_buffer_spec m bx by_ w h bw bh bf' im)
        as (im' & Ecp & Hlen' & Hnth'); try (fold nbx; fold nby; lia).
      rewrite Ecp; cbn [bind].
      rewrite ua_ok by lia; cbn [bind].
      eexists; split; [reflexivity|]. unfold P. split; [auto|]. split; [lia|]. split; [lia|].
      intros j Hj. rewrite Hnth' by lia. rewrite Hnth by lia.
      destruct (Z.ltb_spec j (w * h)); cbn [andb]; auto.
      assert (0 < w) by nia.
      set (qx := j mod w / bw). set (qy := j / w / bh).
      assert (0 <= qx < nbx) by (apply div_lt_ceil; [apply Z.mod_pos_bound|]; lia).
      assert (0 <= j / w < h) by (split; [apply Z.div_pos; lia|apply Z.div_lt_upper_bound; lia]).
      assert (0 <= qy < nby) by (apply div_lt_ceil; lia).
      destruct (Z.eqb_spec qx bx) as [Ex|Ex]; cbn [andb].
      * destruct (Z.eqb_spec qy by_) as [Ey|Ey]; cbn [andb].
        -- rewrite Ex, Ey.
           destruct (Z.ltb_spec (by_ * nbx + bx) (by_ * nbx + (bx + 1))); [|lia].
           rewrite Htex.
           { unfold block_bytes, d. reflexivity. }
           pose proof (Z.mod_pos_bound (j / w) bh ltac:(lia)).
           pose proof (Z.mod_pos_bound (j mod w) bw ltac:(lia)).
           split; [apply Z.add_nonneg_nonneg; [apply Z.mul_nonneg_nonneg|]; lia|].
           assert (((j / w) mod bh + 1) * bw <= bh * bw) by (apply Z.mul_le_mono_nonneg_r; lia). lia.
        -- destruct (Z.ltb_spec (qy * nbx + qx) (by_ * nbx + bx)),
             (Z.ltb_spec (qy * nbx + qx) (by_ * nbx + (bx + 1))); auto; exfalso; try lia.
           assert (qy + 1 <= by_ \/ by_ + 1 <= qy) as [Hc|Hc] by lia;
             apply Z.mul_le_mono_nonneg_r with (p := nbx) in Hc; lia.
      * destruct (Z.ltb_spec (qy * nbx + qx) (by_ * nbx + bx)),
             (Z.ltb_spec (qy * nbx + qx) (by_ * nbx + (bx + 1))); auto; exfalso; try lia.
        assert (qy + 1 <= by_ \/ by_ + 1 <= qy \/ qy = by_) as [Hc|[Hc|Hc]] by lia;
             [| |subst; lia]; apply Z.mul_le_mono_nonneg_r with (p := nbx) in Hc; lia.
    + exists st'; split; auto. replace ((by_ + 1) * nbx) with (by_ * nbx + nbx) by ring. auto.
  - rewrite E; cbn [bind]. exists im; split; [auto|]. split; [auto|].
    intros j Hj. rewrite Hnth by auto.
    destruct (Z.ltb_spec j (w * h)); cbn [andb]; auto.
    assert (0 < w) by nia.
    set (qx := j mod w / bw). set (qy := j / w / bh).
    assert (0 <= qx < nbx) by (apply div_lt_ceil; [apply Z.mod_pos_bound|]; lia).
    assert (0 <= j / w < h) by (split; [apply Z.div_pos; lia|apply Z.div_lt_upper_bound; lia]).
    assert (0 <= qy < nby) by (apply div_lt_ceil; lia).
    destruct (Z.ltb_spec (qy * nbx + qx) (nby * nbx)); auto.
    exfalso. assert ((qy + 1) * nbx <= nby * nbx) by (apply Z.mul_le_mono_nonneg_r; lia). lia.
Qed.

Theorem block_decoder_correct : image_decoder bw bh raw tex (block_decoder m bw bh raw bd).
Proof.
  intros data w h image Hd Hw Hh Hfit Hov Har.
  unfold blocks in *.
  rewrite <- !div_ceil_eq in * by lia.
  assert (0 <= div_ceil w bw) by (destruct (div_ceil_bounds w bw); lia).
  assert (0 <= div_ceil h bh) by (destruct (div_ceil_bounds h bh); lia).
  assert (0 <= div_ceil w bw * div_ceil h bh) by (apply Z.mul_nonneg_nonneg; auto).
  split; [|split].
  - intros Hs. unfold block_decoder.
    rewrite ua_ok by nia; cbn [bind].
    rewrite ua_ok by nia; cbn [bind].
    destruct (Z.ltb_spec (zlen data) (div_ceil w bw * div_ceil h bh * raw)); [auto|lia].
  - intros Hs Hi. unfold block_decoder.
    rewrite ua_ok by nia; cbn [bind].
    rewrite ua_ok by nia; cbn [bind].
    destruct (Z.ltb_spec (zlen data) (div_ceil w bw * div_ceil h bh * raw)); [lia|].
    rewrite ua_ok by (split; [apply Z.mul_nonneg_nonneg|]; lia); cbn [bind].
    destruct (Z.ltb_spec (zlen image) (w * h)); [auto|lia].
  - intros Hs Hi.
    destruct (block_decoder_loop data w h image) as (im & E & Hlen & Hnth); auto; try lia.
    exists im; split; [auto|]. split; [auto|]. split.
    + intros x y Hx Hy.
      assert (0 <= y * w) by (apply Z.mul_nonneg_nonneg; lia).
      assert ((y + 1) * w <= h * w) by (apply Z.mul_le_mono_nonneg_r; lia).
      rewrite Hnth by lia.
      destruct (Z.ltb_spec (y * w + x) (w * h)); [|lia].
      assert ((y * w + x) / w = y) as ->.
      { symmetry; apply Z.div_unique with x; lia. }
      assert ((y * w + x) mod w = x) as ->.
      { symmetry; apply Z.mod_unique with y; lia. }
      unfold blocks; rewrite <- div_ceil_eq by lia; reflexivity.
    + intros j Hj. assert (0 <= w * h) by (apply Z.mul_nonneg_nonneg; lia).
      rewrite Hnth by lia. destruct (Z.ltb_spec j (w * h)); [lia|auto].
Qed.

End Decoder.
