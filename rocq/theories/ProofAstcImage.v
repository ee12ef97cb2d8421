(** * ASTC: images *)
From Verif Require Import Base BaseLemmas ModelColor ProofDecoder GridLemmas SpecImage ProofImage ModelAstc SpecAstc ProofAstcSeq ProofAstcBlock.

Section Image.
Context (m : build) (data : list Z) (w h bw bh : Z) (image : list Z).
Context (Hbw : 0 < bw) (Hbh : 0 < bh) (Ha : bw * bh <= 144).
Context (Hw : 0 <= w < 2 ^ 64) (Hh : 0 <= h < 2 ^ 64) (Hfit : 4 * zlen image < 2 ^ 63) (Har : w * h < 2 ^ 64).
Let nbx := blocks w bw.
Let nby := blocks h bh.
Context (Hov : nbx * nby * 16 < 2 ^ 64).

Lemma nb_pos : 0 <= nbx /\ 0 <= nby.
Proof.
  unfold nbx, nby, blocks. split; apply Z.div_pos; lia.
Qed.

Lemma astc_validation :
  (zlen data < nbx * nby * 16 -> decode_astc m data w h bw bh image = Ok (Failed "Not enough data to decode image!", image)) /\
  (nbx * nby * 16 <= zlen data -> zlen image < w * h ->
     decode_astc m data w h bw bh image = Ok (Failed "Image buffer is too small!", image)).
Proof.
  pose proof nb_pos as [N1 N2]. assert (0 <= nbx * nby) by (apply Z.mul_nonneg_nonneg; auto).
  assert (0 <= w * h) by (apply Z.mul_nonneg_nonneg; lia).
  unfold decode_astc. destruct (Z.eqb_spec bw 0); [lia|]. destruct (Z.eqb_spec bh 0); [lia|]. cbn [orb].
  rewrite !div_ceil_eq by lia. fold (blocks w bw) (blocks h bh). fold nbx nby. cbv zeta.
  rewrite ua_ok by lia. cbn [bind]. rewrite ua_ok by lia. cbn [bind]. split.
  - intros H'. destruct (Z.ltb_spec (zlen data) (nbx * nby * 16)); [reflexivity|lia].
  - intros H1 H2. destruct (Z.ltb_spec (zlen data) (nbx * nby * 16)); [lia|]. rewrite ua_ok by lia. cbn [bind].
    destruct (Z.ltb_spec (zlen image) (w * h)); [reflexivity|lia].
Qed.

Context (Hdata : nbx * nby * 16 <= zlen data) (Himg : w * h <= zlen image).

Definition astc_row (by_ : Z) (bx : Z) (st : list Z * list Z * Z) : res (list Z * list Z * Z) :=
  let '(buffer, image, data_offset) := st in
  let* d := slice_from data data_offset in
  let* buffer := decode_astc_block m d bw bh buffer in
  let* image := copy_block_buffer m bx by_ w h bw bh buffer image in
  let* data_offset := ua m 64 (data_offset + 16) in
  Ok (buffer, image, data_offset).

Lemma astc_loop : decode_astc m data w h bw bh image =
  let* (_, im, _) := for_range 0 nby (fun by_ st => for_range 0 nbx (astc_row by_) st) (repeat 0 144, image, 0) in
  Ok (Done, im).
Proof.
  pose proof nb_pos as [N1 N2]. assert (0 <= nbx * nby) by (apply Z.mul_nonneg_nonneg; auto).
  assert (0 <= w * h) by (apply Z.mul_nonneg_nonneg; lia).
  assert (0 <= bw * bh) by (apply Z.mul_nonneg_nonneg; lia).
  unfold decode_astc. destruct (Z.eqb_spec bw 0); [lia|]. destruct (Z.eqb_spec bh 0); [lia|]. cbn [orb].
  rewrite !div_ceil_eq by lia. fold (blocks w bw) (blocks h bh). fold nbx nby. cbv zeta.
  rewrite ua_ok by lia. cbn [bind]. rewrite ua_ok by lia. cbn [bind].
  destruct (Z.ltb_spec (zlen data) (nbx * nby * 16)); [lia|]. rewrite ua_ok by lia. cbn [bind].
  destruct (Z.ltb_spec (zlen image) (w * h)); [lia|]. rewrite ua_ok by lia. cbn [bind].
  destruct (Z.ltb_spec 144 (bw * bh)); [lia|]. reflexivity.
Qed.

Lemma slice_block k : 0 <= k < nby * nbx -> slice_from data (16 * k) = Ok (skipn (Z.to_nat (16 * k)) data).
Proof. intros H. apply slice_from_ok. lia. Qed.

Lemma index_bound by_ bx : 0 <= by_ < nby -> 0 <= bx < nbx -> 0 <= by_ * nbx + bx < nby * nbx.
Proof.
  intros Hy Hx. split; [apply Z.add_nonneg_nonneg; [apply Z.mul_nonneg_nonneg|]; lia|].
  assert ((by_ + 1) * nbx <= nby * nbx) by (apply Z.mul_le_mono_nonneg_r; lia). lia.
Qed.

Lemma astc_image (T : Z -> Z -> Z) :
  (forall k, 0 <= k < nby * nbx -> forall out, bw * bh <= zlen out ->
     exists o, decode_astc_block m (skipn (Z.to_nat (16 * k)) data) bw bh out = Ok o /\ filled 0 out o (bw * bh) (T k)) ->
  exists im, decode_astc m data w h bw bh image = Ok (Done, im) /\ placed bw bh T w h image im.
Proof.
  intros HB. rewrite astc_loop. pose proof nb_pos as [N1 N2].
  assert (div_ceil w bw = nbx) as Cx by (apply div_ceil_eq; lia).
  assert (div_ceil h bh = nby) as Cy by (apply div_ceil_eq; lia).
  assert (bw * 1 <= bw * bh) by (apply Z.mul_le_mono_nonneg_l; lia).
  assert (1 * bh <= bw * bh) by (apply Z.mul_le_mono_nonneg_r; lia).
  set (tex bx by_ t := T (by_ * nbx + bx) t).
  destruct (grid_inv (fun k (st : list Z * list Z * Z) =>
      let '(buf, im, off) := st in off = 16 * k /\ zlen buf = 144 /\ stored bw bh w h nbx tex image k im)
    nbx nby astc_row (fun by_ st => for_range 0 nbx (astc_row by_) st) (repeat 0 144, image, 0)) as (st & E & HP); auto.
  - split; [lia|]. split; [reflexivity|]. apply stored_0; lia.
  - intros by_ bx [[buf im] off] Hy Hx (-> & Lb & St). unfold astc_row.
    pose proof (index_bound by_ bx Hy Hx) as K. rewrite slice_block by auto. cbn [bind].
    destruct (HB _ K buf ltac:(lia)) as (o & Eo & Lo & Fo). rewrite Eo. cbn [bind].
    destruct (stored_step m bw bh w h tex image bx by_ im o) as (im' & EC & St'); rewrite ?Cx, ?Cy; auto; try lia.
    { intros t Ht. unfold znth. rewrite Fo by lia. destruct (Z.ltb_spec t (bw * bh)); [reflexivity|lia]. }
    rewrite EC. cbn [bind]. rewrite ua_ok by lia. cbn [bind]. eexists; split; [reflexivity|]. cbv iota beta.
    split; [lia|]. split; [lia|]. rewrite Cx in St'. exact St'.
  - destruct st as [[buf im] off]. destruct HP as (_ & _ & St). rewrite E. cbn [bind].
    exists im. split; [reflexivity|]. rewrite <- Cx, <- Cy in St. apply stored_all in St; [|lia|lia|lia|lia|lia].
    exact St.
Qed.

Lemma astc_image_inv s im : decode_astc m data w h bw bh image = Ok (s, im) ->
  forall k, 0 <= k < nby * nbx -> exists T, forall out, bw * bh <= zlen out ->
     exists o, decode_astc_block m (skipn (Z.to_nat (16 * k)) data) bw bh out = Ok o /\ filled 0 out o (bw * bh) T.
Proof.
  rewrite astc_loop. intros E. apply bind_ok_inv in E as ([[buf im'] off] & E & _). pose proof nb_pos as [N1 N2].
  set (P k (st : list Z * list Z * Z) := snd st = 16 * k /\ zlen (fst (fst st)) = 144 /\
    forall k', 0 <= k' < k -> exists T, forall out, bw * bh <= zlen out ->
     exists o, decode_astc_block m (skipn (Z.to_nat (16 * k')) data) bw bh out = Ok o /\ filled 0 out o (bw * bh) T).
  cut (P (nby * nbx) (buf, im', off)); [intros (_ & _ & H); exact H|].
  refine (for_range_ok_inv (fun y => P (y * nbx)) _ _ _ _ _ N2 _ _ E); clear E.
  { split; [reflexivity|]. split; [reflexivity|]. intros; lia. }
  intros by_ st st' Hy HP E. replace ((by_ + 1) * nbx) with (by_ * nbx + nbx) by ring.
  refine (for_range_ok_inv (fun x => P (by_ * nbx + x)) _ _ _ _ _ N1 _ _ E); clear E.
  { rewrite Z.add_0_r. exact HP. }
  clear st st' HP. intros bx [[b i] o] [[b' i'] o'] Hx (Ho & Lb & HP) E. cbn [fst snd] in Ho, Lb. subst o.
  pose proof (index_bound by_ bx Hy Hx) as K. unfold astc_row in E. rewrite slice_block in E by auto. cbn [bind] in E.
  apply bind_ok_inv in E as (o & Eo & E). apply bind_ok_inv in E as (im1 & _ & E).
  rewrite ua_ok in E by lia. cbn [bind] in E. assert (b' = o /\ o' = 16 * (by_ * nbx + bx) + 16) as [-> ->] by (split; congruence).
  destruct (block_uniform m _ bw bh b o ltac:(lia) ltac:(lia) Ha ltac:(lia) Eo) as (T & HT).
  split; [cbn [snd]; lia|]. split.
  - cbn [fst]. destruct (HT b ltac:(lia)) as (o2 & E2 & L2 & _). assert (o = o2) as -> by congruence. lia.
  - intros k' Hk'. destruct (Z.eq_dec k' (by_ * nbx + bx)) as [->|]; [exists T; exact HT|]. apply HP. lia.
Qed.
End Image.

Lemma astc_too_big m data w h bw bh image : 0 < bw -> 0 < bh -> 144 < bw * bh < 2 ^ 64 ->
  0 <= w -> 0 <= h -> w * h < 2 ^ 64 -> blocks w bw * blocks h bh * 16 < 2 ^ 64 ->
  blocks w bw * blocks h bh * 16 <= zlen data -> w * h <= zlen image ->
  decode_astc m data w h bw bh image = Ok (Failed "Block size is too big!", image).
Proof.
  intros Hbw Hbh Ha Hw Hh Har Hov Hd Hi.
  assert (0 <= blocks w bw * blocks h bh) by (apply Z.mul_nonneg_nonneg; unfold blocks; apply Z.div_pos; lia).
  assert (0 <= w * h) by (apply Z.mul_nonneg_nonneg; lia).
  unfold decode_astc. destruct (Z.eqb_spec bw 0); [lia|]. destruct (Z.eqb_spec bh 0); [lia|]. cbn [orb].
  rewrite !div_ceil_eq by lia. fold (blocks w bw) (blocks h bh). cbv zeta.
  rewrite ua_ok by lia. cbn [bind]. rewrite ua_ok by lia. cbn [bind].
  destruct (Z.ltb_spec (zlen data) (blocks w bw * blocks h bh * 16)); [lia|]. rewrite ua_ok by lia. cbn [bind].
  destruct (Z.ltb_spec (zlen image) (w * h)); [lia|]. rewrite ua_ok by lia. cbn [bind].
  destruct (Z.ltb_spec 144 (bw * bh)); [reflexivity|lia].
Qed.

(** The word of block [k] is the word of its 16 bytes. *)
Lemma word_of_block k data : astc_word (skipn (Z.to_nat (16 * k)) data) = astc_word (block_bytes 16 k data).
Proof. unfold astc_word, block_bytes. rewrite firstn_firstn. reflexivity. Qed.
