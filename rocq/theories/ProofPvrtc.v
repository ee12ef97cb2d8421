(** * PVRTC: infos of all blocks, image decoding *)
From Verif Require Import Base BaseLemmas BitLemmas ModelColor ModelPvrtc SpecImage SpecBc SpecPvrtc ProofBc ProofDecoder ProofImage
  GridLemmas ProofMorton ProofPvrInfo ProofPvrPixel.

(** ** Powers of two *)
Lemma pow2_land p : 0 <= p -> Z.land (2 ^ p) (2 ^ p - 1) = 0.
Proof. intros. rewrite land_mask by lia. apply Z.mod_same, Z.pow_nonzero; lia. Qed.
Lemma land_pred_pow2 n : 0 < n -> Z.land n (n - 1) = 0 -> exists p, 0 <= p /\ n = 2 ^ p.
Proof.
  intros Hn H. pose proof (Z.log2_spec n Hn) as [L U]. pose proof (Z.log2_nonneg n). set (k := Z.log2 n) in *.
  exists k. split; [auto|]. destruct (Z.eq_dec n (2 ^ k)) as [E|N]; [auto|]. exfalso.
  assert (Z.testbit (Z.land n (n - 1)) k = true) as T.
  { rewrite Z.land_spec. rewrite andb_true_iff, !Z.testbit_true by lia. rewrite Z.pow_succ_r in U by lia.
    assert (n / 2 ^ k = 1) as -> by (symmetry; apply Z.div_unique with (n - 2 ^ k); lia).
    assert ((n - 1) / 2 ^ k = 1) as -> by (symmetry; apply Z.div_unique with (n - 1 - 2 ^ k); lia). auto. }
  rewrite H, Z.bits_0 in T. discriminate.
Qed.

(** ** Only the 8 bytes of a block matter *)
Lemma firstn8 d : pvr_mod (firstn 8 d) = pvr_mod d /\ pvr_mode (firstn 8 d) = pvr_mode d /\
  pvr_word_a (firstn 8 d) = pvr_word_a d /\ pvr_word_b (firstn 8 d) = pvr_word_b d.
Proof.
  unfold pvr_mod, pvr_mode, pvr_word_a, pvr_word_b. rewrite !(znth_firstn d 8) by lia. auto.
Qed.
Lemma colors_firstn8 d : color_a (firstn 8 d) = color_a d /\ color_b (firstn 8 d) = color_b d.
Proof.
  destruct (firstn8 d) as (_ & _ & A & B). unfold color_a, color_b, pvr_a, pvr_b. rewrite A, B. auto.
Qed.
Lemma info4_firstn8 d t : info4 d t -> info4 (firstn 8 d) t.
Proof.
  destruct (firstn8 d) as (M & E & _). destruct (colors_firstn8 d) as [A B].
  unfold info4, punch4, mod4, mod4_index. rewrite M, E, A, B. auto.
Qed.
Lemma info2_firstn8 d t : info2 d t -> info2 (firstn 8 d) t.
Proof.
  destruct (firstn8 d) as (M & E & _). destruct (colors_firstn8 d) as [A B].
  unfold info2, fill_flag, stored2. rewrite M, E, A, B. auto.
Qed.

(** ** Both bit rates *)
Definition bwid (is2 : bool) : Z := if is2 then 8 else 4.
Definition infoP (is2 : bool) : list Z -> tinfo -> Prop := if is2 then info2 else info4.
Definition pixP (is2 : bool) : (Z -> Z -> list Z) -> Z -> Z -> Z -> Z -> Z := if is2 then pvr2_pixel else pvr4_pixel.

Lemma infoP_colors is2 b t : infoP is2 b t -> ta t = color_a b /\ tb t = color_b b.
Proof. destruct is2; intros (A & B & _); auto. Qed.

Lemma infos_step m is2 data k infos : bytes data -> 0 <= k < zlen infos -> 8 * k + 8 < 2 ^ 64 -> 8 * (k + 1) <= zlen data ->
  nth (Z.to_nat k) infos tdefault = tdefault ->
  exists t, infoP is2 (block_bytes 8 k data) t /\
    (let* info := idx infos k in
     let* d := slice_from data (8 * k) in
     let* info := get_texel_colors d info in
     let* info := if is2 then get_texel_weights_2bpp m d info else get_texel_weights_4bpp m d info in
     let* infos := upd infos k info in
     let* data_offset := ua m 64 (8 * k + 8) in
     Ok (infos, data_offset)) = Ok (replace_nth (Z.to_nat k) t infos, 8 * (k + 1)).
Proof.
  intros Hb Hk Hs Hd Ht. rewrite (idx_ok_d tdefault) by lia. cbn [bind]. rewrite Ht.
  unfold slice_from. rewrite (proj2 (Z.leb_le 0 (8 * k))), (proj2 (Z.leb_le (8 * k) (zlen data))) by lia. cbn [andb bind].
  unfold block_bytes. set (d := skipn (Z.to_nat (8 * k)) data). change (Z.to_nat 8) with 8%nat.
  assert (Bd : bytes d) by (apply bytes_skipn; auto).
  assert (Ld : 8 <= zlen d) by (unfold d; rewrite zlen_skipn; lia).
  rewrite (colors_ok d Bd Ld). cbn [bind].
  destruct is2.
  - destruct (weights2_ok d Bd Ld m (mkT (color_a d) (color_b d) (tw tdefault) (tp tdefault)) eq_refl eq_refl eq_refl) as (t & E & I).
    exists t. split; [apply info2_firstn8; auto|]. rewrite E. cbn [bind]. rewrite upd_ok by lia. cbn [bind].
    rewrite ua_ok by lia. cbn [bind]. do 2 f_equal. lia.
  - destruct (weights4_ok d Bd Ld m (mkT (color_a d) (color_b d) (tw tdefault) (tp tdefault)) eq_refl eq_refl eq_refl) as (t & E & I).
    exists t. split; [apply info4_firstn8; auto|]. rewrite E. cbn [bind]. rewrite upd_ok by lia. cbn [bind].
    rewrite ua_ok by lia. cbn [bind]. do 2 f_equal. lia.
Qed.

Definition infosI (is2 : bool) (data : list Z) (n k : Z) (st : list tinfo * Z) : Prop :=
  let '(infos, off) := st in off = 8 * k /\ zlen infos = n /\
  (forall j, 0 <= j < k -> infoP is2 (block_bytes 8 j data) (nth (Z.to_nat j) infos tdefault)) /\
  (forall j, k <= j < n -> nth (Z.to_nat j) infos tdefault = tdefault).

Lemma infosI_0 is2 data n : 0 <= n -> infosI is2 data n 0 (repeat tdefault (Z.to_nat n), 0).
Proof.
  intros Hn. split; [lia|]. split; [unfold zlen; rewrite repeat_length; lia|]. split; [intros; lia|].
  intros j Hj. apply nth_repeat.
Qed.
Lemma infosI_step m is2 data n k st : bytes data -> 0 <= k < n -> 8 * n < 2 ^ 64 -> 8 * (k + 1) <= zlen data ->
  infosI is2 data n k st ->
  exists st', (fun k '(infos, data_offset) =>
      let* info := idx infos k in
      let* d := slice_from data data_offset in
      let* info := get_texel_colors d info in
      let* info := if is2 then get_texel_weights_2bpp m d info else get_texel_weights_4bpp m d info in
      let* infos := upd infos k info in
      let* data_offset := ua m 64 (data_offset + 8) in
      Ok (infos, data_offset)) k st = Ok st' /\ infosI is2 data n (k + 1) st'.
Proof.
  intros Hb Hk Hn Hd. destruct st as [infos off]. intros (-> & L & I1 & I2). cbv beta iota.
  destruct (infos_step m is2 data k infos Hb ltac:(lia) ltac:(lia) Hd (I2 k ltac:(lia))) as (t & It & E).
  rewrite E. eexists; split; [reflexivity|]. split; [lia|]. split; [rewrite zlen_replace_nth; auto|]. split; intros j Hj.
  - rewrite nth_replace_nth by (unfold zlen in *; lia). destruct (Nat.eqb_spec (Z.to_nat j) (Z.to_nat k)).
    + replace j with k by lia. auto.
    + apply I1. lia.
  - rewrite nth_replace_nth by (unfold zlen in *; lia). rewrite (proj2 (Nat.eqb_neq _ _)) by lia. apply I2. lia.
Qed.

Lemma infos_ok m is2 data n : bytes data -> 0 <= n -> 8 * n < 2 ^ 64 -> 8 * n <= zlen data ->
  exists infos, pvr_infos m data n is2 = Ok infos /\ zlen infos = n /\
    forall j, 0 <= j < n -> infoP is2 (block_bytes 8 j data) (nth (Z.to_nat j) infos tdefault).
Proof.
  intros Hb Hn Hs Hd. unfold pvr_infos.
  match goal with |- context [for_range 0 n ?f ?s] =>
    destruct (for_range_inv (infosI is2 data n) 0 n f s) as ([infos off] & E & _ & L & I & _) end.
  - lia.
  - apply infosI_0; lia.
  - intros k st Hk HI. apply (infosI_step m is2 data n k st); auto; lia.
  - rewrite E. cbn [bind]. exists infos. auto.
Qed.

(** Too little data: a panic. *)
Lemma infos_panic m is2 data n : bytes data -> 8 * n < 2 ^ 64 -> zlen data < 8 * n -> pvr_infos m data n is2 = Panic.
Proof.
  intros Hb Hs Hd. unfold pvr_infos. pose proof (zlen_nonneg data). set (k := zlen data / 8).
  assert (8 * k <= zlen data < 8 * (k + 1)) as K by (unfold k; clear; dlia).
  match goal with |- context [for_range 0 n ?f ?s] =>
    rewrite (for_range_panic (infosI is2 data n) 0 n k f s) end; [reflexivity|lia|apply infosI_0; lia| |].
  - intros i st Hi HI. apply (infosI_step m is2 data n i st); auto; lia.
  - intros [infos off] (-> & L & _). cbv beta iota. rewrite (idx_ok_d tdefault) by lia. cbn [bind].
    unfold slice_from. rewrite (proj2 (Z.leb_le 0 (8 * k))), (proj2 (Z.leb_le (8 * k) (zlen data))) by lia. cbn [andb bind].
    set (d := skipn (Z.to_nat (8 * k)) data).
    assert (Ld : zlen d < 8) by (unfold d; rewrite zlen_skipn; lia).
    assert (forall info, get_texel_colors d info = Panic) as ->; [|reflexivity].
    intros info. unfold get_texel_colors. unfold slice.
    destruct ((0 <=? 4) && (4 <=? 6) && (6 <=? zlen d)); [|reflexivity]. cbn [bind].
    rewrite (proj2 (Z.leb_gt 8 (zlen d))) by lia. rewrite andb_false_r. reflexivity.
Qed.

Lemma positions_ok m b n : 0 <= b < n -> n <= 2 ^ 64 ->
  pvr_positions m b n = Ok [(b - 1) mod n; b; (b + 1) mod n].
Proof.
  intros Hb Hn. unfold pvr_positions.
  assert ((if b =? 0 then ua m 64 (n - 1) else ua m 64 (b - 1)) = Ok ((b - 1) mod n)) as ->.
  { destruct (Z.eqb_spec b 0) as [->|N]; rewrite ua_ok by lia; f_equal.
    - apply Z.mod_unique with (-1); lia.
    - symmetry. apply Z.mod_small. lia. }
  cbn [bind]. rewrite ua_ok by lia. cbn [bind].
  destruct (Z.eqb_spec b (n - 1)) as [->|N].
  - cbn [bind]. replace (n - 1 + 1) with n by lia. rewrite Z.mod_same by lia. reflexivity.
  - rewrite ua_ok by lia. cbn [bind]. rewrite (Z.mod_small (b + 1)) by lia. reflexivity.
Qed.

Lemma positions_nth m b n pos c : 0 <= b < n -> n <= 2 ^ 64 -> pvr_positions m b n = Ok pos -> 0 <= c < 3 ->
  idx pos c = Ok ((b + c - 1) mod n).
Proof.
  intros Hb Hn E Hc. rewrite positions_ok in E by auto. injection E as <-.
  assert (c = 0 \/ c = 1 \/ c = 2) as [-> |[-> | ->]] by lia.
  - replace (b + 0 - 1) with (b - 1) by lia. reflexivity.
  - replace (b + 1 - 1) with b by lia. rewrite (Z.mod_small b n) by lia. reflexivity.
  - replace (b + 2 - 1) with (b + 1) by lia. reflexivity.
Qed.

Section Decode.
Context (m : build) (is2 : bool) (data : list Z) (w h : Z) (image : list Z).
Context (S : pvr_sane (bwid is2) data w h image).
Let nbx := blocks w (bwid is2).
Let nby := blocks h 4.

Lemma bw_cases : bwid is2 = 4 \/ bwid is2 = 8.
Proof. destruct is2; auto. Qed.
Lemma nb_eq : div_ceil w (bwid is2) = nbx /\ div_ceil h 4 = nby.
Proof.
  destruct S as (_ & Hw & Hh & _). pose proof bw_cases.
  split; unfold nbx, nby, blocks; apply div_ceil_eq; lia.
Qed.
Lemma nb_nonneg : 0 <= nbx /\ 0 <= nby /\ 0 <= nbx * nby /\ 0 <= w * h.
Proof.
  destruct S as (_ & Hw & Hh & _). pose proof bw_cases.
  assert (0 <= nbx) by (apply Z.div_pos; lia). assert (0 <= nby) by (apply Z.div_pos; lia).
  repeat split; auto; apply Z.mul_nonneg_nonneg; lia.
Qed.
Lemma nb_pos : (0 < nbx <-> 0 < w) /\ (0 < nby <-> 0 < h).
Proof.
  destruct S as (_ & Hw & Hh & _). pose proof bw_cases as B. unfold nbx, nby, blocks.
  split; (split; intros H; [|apply Z.div_str_pos; lia]).
  - destruct (Z.eq_dec w 0) as [->|]; [|lia]. rewrite Z.div_small in H by lia. lia.
  - destruct (Z.eq_dec h 0) as [->|]; [|lia]. rewrite Z.div_small in H by lia. lia.
Qed.
Lemma nb_small : nbx < 2 ^ 64 /\ nby < 2 ^ 64.
Proof.
  destruct S as (_ & Hw & Hh & _). pose proof bw_cases as B. unfold nbx, nby, blocks.
  split; apply Z.div_lt_upper_bound; lia.
Qed.

(** After the size checks. *)
Definition rest_code : res (status * list Z) :=
  let* x1 := ua m 64 (nbx - 1) in
  let* not_pow2 :=
    if negb (Z.land nbx x1 =? 0) then Ok true
    else let* y1 := ua m 64 (nby - 1) in Ok (negb (Z.land nby y1 =? 0)) in
  if not_pow2 : bool then Ok (Failed "The number of blocks of each side must be a power of 2!", image) else
  let* infos := pvr_infos m data (nbx * nby) is2 in
  let* (_, _, image) :=
    for_range 0 nby (fun by_ st =>
      let* pos_y := pvr_positions m by_ nby in
      for_range 0 nbx (fun bx '(local_info, buffer, image) =>
        let* pos_x := pvr_positions m bx nbx in
        let* (local_info, _) :=
          for_range 0 3 (fun cy st =>
            for_range 0 3 (fun cx '(local_info, c) =>
              let* px := idx pos_x cx in
              let* py := idx pos_y cy in
              let* k := morton_index m px py (Z.min nbx nby) in
              let* t := idx infos k in
              let* local_info := upd local_info c t in
              let* c := ua m 64 (c + 1) in
              Ok (local_info, c)) st) (local_info, 0) in
        let* k := morton_index m bx by_ (Z.min nbx nby) in
        let* k8 := ua m 64 (k * 8) in
        let* _ := slice_from data k8 in
        let* buffer := if is2 then applicate_color_2bpp m local_info buffer else applicate_color_4bpp m local_info buffer in
        let* image := copy_block_buffer m bx by_ w h (bwid is2) 4 buffer image in
        Ok (local_info, buffer, image)) st) (repeat tdefault 9, repeat 0 32, image) in
  Ok (Done, image).

Lemma decode_checks : decode_pvrtc m data w h image is2 =
  if zlen data <? nbx * nby * bwid is2 then Ok (Failed "The data buffer is too small!", image)
  else if zlen image <? w * h then Ok (Failed "The image buffer is too small!", image)
  else rest_code.
Proof.
  unfold decode_pvrtc. fold (bwid is2). destruct nb_eq as [-> ->]. destruct nb_nonneg as (Nx & Ny & Nn & Na).
  destruct S as (_ & _ & _ & _ & Hs & Ha). fold nbx nby in Hs. pose proof bw_cases.
  rewrite ua_ok by lia. cbn [bind]. rewrite ua_ok by (destruct H as [-> | ->]; lia). cbn [bind].
  destruct (zlen data <? nbx * nby * bwid is2); [reflexivity|]. rewrite ua_ok by lia. cbn [bind]. reflexivity.
Qed.

Lemma rest_not_pow2 : 0 < nbx -> 0 < nby -> ~ (pow2 nbx /\ pow2 nby) ->
  rest_code = Ok (Failed "The number of blocks of each side must be a power of 2!", image).
Proof.
  intros Hx Hy Hn. destruct nb_small. unfold rest_code. rewrite ua_ok by lia. cbn [bind].
  destruct (Z.eqb_spec (Z.land nbx (nbx - 1)) 0) as [E|E]; cbn [negb bind]; [|reflexivity].
  rewrite ua_ok by lia. cbn [bind].
  destruct (Z.eqb_spec (Z.land nby (nby - 1)) 0) as [E'|E']; cbn [negb bind]; [|reflexivity].
  exfalso. apply Hn. split; apply land_pred_pow2; auto.
Qed.

(** Sides of zero blocks. *)
Lemma pow2_test n : pow2 n -> Z.land n (n - 1) = 0.
Proof. intros (k & Hk & ->). apply pow2_land; auto. Qed.
Lemma pow2_positive n : pow2 n -> 0 < n.
Proof. intros (k & Hk & ->). apply Z.pow_pos_nonneg; lia. Qed.
Lemma rest_zero_checked : m = Checked -> nbx = 0 \/ nby = 0 /\ pow2 nbx -> rest_code = Panic.
Proof.
  intros Hm Hz. destruct nb_small. unfold rest_code. destruct Hz as [Z|[Z P]].
  - rewrite Z, Hm. reflexivity.
  - pose proof (pow2_positive _ P). rewrite ua_ok by lia. cbn [bind]. rewrite pow2_test by auto. cbn [Z.eqb negb].
    rewrite Z, Hm. reflexivity.
Qed.
Lemma rest_zero_failed : 0 < nbx -> ~ pow2 nbx ->
  rest_code = Ok (Failed "The number of blocks of each side must be a power of 2!", image).
Proof.
  intros Hx Hn. destruct nb_small. unfold rest_code. rewrite ua_ok by lia. cbn [bind].
  destruct (Z.eqb_spec (Z.land nbx (nbx - 1)) 0) as [E|E]; cbn [negb bind]; [|reflexivity].
  exfalso. apply Hn. apply land_pred_pow2; auto.
Qed.
Lemma wrap_test n : n < 2 ^ 64 -> n = 0 \/ pow2 n -> exists n1, ua Wrapping 64 (n - 1) = Ok n1 /\ Z.land n n1 = 0.
Proof.
  intros Hs [-> |P].
  - eexists; split; reflexivity.
  - pose proof (pow2_positive _ P). rewrite ua_ok by lia. eexists; split; [reflexivity|]. apply pow2_test; auto.
Qed.
Lemma rest_zero_wrapping : m = Wrapping -> nbx = 0 \/ nby = 0 -> nbx = 0 \/ pow2 nbx -> nby = 0 \/ pow2 nby ->
  rest_code = Ok (Done, image).
Proof.
  intros Hm Hz Hx Hy. destruct nb_small. destruct nb_nonneg as (? & ? & _).
  destruct (wrap_test nbx) as (x1 & Ex & Tx); auto. destruct (wrap_test nby) as (y1 & Ey & Ty); auto.
  unfold rest_code. rewrite Hm. rewrite Ex. cbn [bind]. rewrite Tx. cbn [Z.eqb negb]. rewrite Ey. cbn [bind]. rewrite Ty. cbn [Z.eqb negb bind].
  replace (nbx * nby) with 0 by (destruct Hz as [-> | ->]; lia). change (pvr_infos Wrapping data 0 is2) with (Ok (@nil tinfo)). cbn [bind].
  match goal with |- context [for_range 0 nby ?f ?s] =>
    destruct (for_range_inv (fun _ st => st = s) 0 nby f s) as (st & E & ->) end; [lia|auto| |rewrite E; reflexivity].
  intros i st Hi ->. rewrite positions_ok by lia. cbn [bind].
  rewrite for_range_nil by (destruct Hz; lia). eexists; split; reflexivity.
Qed.

Context (p q : Z) (Hp : 0 <= p) (Hq : 0 <= q) (Ex : nbx = 2 ^ p) (Ey : nby = 2 ^ q).

Lemma pow_pos2 : 0 < nbx /\ 0 < nby.
Proof. rewrite Ex, Ey. split; apply Z.pow_pos_nonneg; lia. Qed.

Lemma rest_short : zlen data < nbx * nby * 8 -> rest_code = Panic.
Proof.
  intros Hd. destruct nb_small. destruct pow_pos2. unfold rest_code. rewrite ua_ok by lia. cbn [bind].
  replace (Z.land nbx (nbx - 1)) with 0 by (rewrite Ex; symmetry; apply pow2_land; lia). cbn [Z.eqb negb].
  rewrite ua_ok by lia. cbn [bind].
  replace (Z.land nby (nby - 1)) with 0 by (rewrite Ey; symmetry; apply pow2_land; lia). cbn [Z.eqb negb bind].
  destruct S as (Hb & _ & _ & _ & Hs & _). fold nbx nby in Hs.
  rewrite infos_panic by (auto; lia). reflexivity.
Qed.

Let blk := pvr_blocks data p q.
Lemma blk_bytes i j : bytes (blk i j).
Proof. destruct S as (Hb & _). apply block_bytes_bytes. auto. Qed.

Lemma pq_bound : p + q <= 60.
Proof.
  destruct S as (_ & _ & _ & _ & Hs & _). fold nbx nby in Hs. rewrite Ex, Ey in Hs.
  destruct (Z.le_gt_cases (p + q) 60); [auto|]. exfalso.
  assert (2 ^ 61 <= 2 ^ (p + q)) by (apply Z.pow_le_mono_r; lia). rewrite Z.pow_add_r in H0 by lia. lia.
Qed.
Lemma min_pow : Z.min nbx nby = 2 ^ Z.min p q.
Proof.
  rewrite Ex, Ey. destruct (Z.le_ge_cases p q).
  - rewrite (Z.min_l p q) by auto. apply Z.min_l. apply Z.pow_le_mono_r; lia.
  - rewrite (Z.min_r p q) by auto. apply Z.min_r. apply Z.pow_le_mono_r; lia.
Qed.
Lemma addr_ok x y : 0 <= x < nbx -> 0 <= y < nby ->
  morton_index m x y (Z.min nbx nby) = Ok (morton (Z.to_nat (Z.min p q)) x y) /\
  0 <= morton (Z.to_nat (Z.min p q)) x y < nbx * nby.
Proof.
  intros Hx Hy. pose proof pq_bound. rewrite min_pow. rewrite Ex, Ey in *.
  split; [apply morton_index_ok; lia|apply morton_range; lia].
Qed.

Lemma rest_ok : nbx * nby * 8 <= zlen data -> w * h <= zlen image ->
  exists image', rest_code = Ok (Done, image') /\ pvr_picture (pixP is2) p q data w h image image'.
Proof.
  intros Hd Him. destruct nb_small as [Sx Sy]. destruct pow_pos2 as [Px Py]. unfold rest_code. rewrite ua_ok by lia. cbn [bind].
  replace (Z.land nbx (nbx - 1)) with 0 by (rewrite Ex; symmetry; apply pow2_land; lia). cbn [Z.eqb negb].
  rewrite ua_ok by lia. cbn [bind].
  replace (Z.land nby (nby - 1)) with 0 by (rewrite Ey; symmetry; apply pow2_land; lia). cbn [Z.eqb negb bind].
  destruct nb_nonneg as (_ & _ & Nn & Na).
  pose proof S as (Hb & Hw & Hh & Hi & Hs & Ha). fold nbx nby in Hs.
  destruct (infos_ok m is2 data (nbx * nby)) as (infos & -> & Li & Hinfo); [auto|lia|lia|lia|]. cbn [bind].
  set (tex := fun bx by_ t => pixP is2 blk nbx nby (bx * bwid is2 + t mod bwid is2) (by_ * 4 + t / bwid is2)).
  pose proof bw_cases as Hbw. destruct nb_eq as [Cx Cy].
  match goal with |- context [for_range 0 nby ?f ?s0] =>
    destruct (grid_inv (fun k st => let '(li, buf, im) := st in zlen li = 9 /\ zlen buf = 32 /\ stored (bwid is2) 4 w h nbx tex image k im)
      nbx nby (fun by_ bx st => let* pos_y := pvr_positions m by_ nby in
        (fun bx '(local_info, buffer, image) =>
        let* pos_x := pvr_positions m bx nbx in
        let* (local_info, _) :=
          for_range 0 3 (fun cy st =>
            for_range 0 3 (fun cx '(local_info, c) =>
              let* px := idx pos_x cx in
              let* py := idx pos_y cy in
              let* k := morton_index m px py (Z.min nbx nby) in
              let* t := idx infos k in
              let* local_info := upd local_info c t in
              let* c := ua m 64 (c + 1) in
              Ok (local_info, c)) st) (local_info, 0) in
        let* k := morton_index m bx by_ (Z.min nbx nby) in
        let* k8 := ua m 64 (k * 8) in
        let* _ := slice_from data k8 in
        let* buffer := if is2 then applicate_color_2bpp m local_info buffer else applicate_color_4bpp m local_info buffer in
        let* image := copy_block_buffer m bx by_ w h (bwid is2) 4 buffer image in
        Ok (local_info, buffer, image)) bx st) f s0) as ([[li buf] im] & E & _ & _ & St) end.
  - lia.
  - lia.
  - split; [reflexivity|]. split; [reflexivity|]. apply stored_0; lia.
  - intros by_ bx [[li buf] im] Hby Hbx (Ll & Lb & St). cbv beta iota.
    pose proof (positions_ok m by_ nby Hby ltac:(lia)) as PY. pose proof (positions_ok m bx nbx Hbx ltac:(lia)) as PX.
    pose proof (fun c => positions_nth m by_ nby _ c Hby ltac:(lia) PY) as NY. pose proof (fun c => positions_nth m bx nbx _ c Hbx ltac:(lia) PX) as NX.
    rewrite PY. cbn [bind]. rewrite PX. cbn [bind]. clear PX PY.
    generalize dependent [(by_ - 1) mod nby; by_; (by_ + 1) mod nby]. intros pos_y NY.
    generalize dependent [(bx - 1) mod nbx; bx; (bx + 1) mod nbx]. intros pos_x NX.
    set (at_ := fun c => (morton (Z.to_nat (Z.min p q)) ((bx + c mod 3 - 1) mod nbx) ((by_ + c / 3 - 1) mod nby))).
    match goal with |- context [for_range 0 3 (fun cy st => for_range 0 3 (@?f cy) st) (li, 0)] => set (body := f);
      match goal with |- context [bind (for_range 0 3 ?g (li, 0)) _] =>
        change (for_range 0 3 g (li, 0)) with (for_range 0 3 (fun cy st => for_range 0 3 (body cy) st) (li, 0)) end;
      destruct (fill2 tdefault 3 3 body (fun c => nth (Z.to_nat (at_ c)) infos tdefault) li) as (li' & E & Ll' & Hl') end.
    + lia.
    + lia.
    + lia.
    + intros cy cx l Hcy Hcx Hl Hk. unfold body. cbv beta iota. rewrite NX, NY by auto. cbn [bind].
      destruct (addr_ok ((bx + cx - 1) mod nbx) ((by_ + cy - 1) mod nby)) as [-> R]; [apply Z.mod_pos_bound; lia|apply Z.mod_pos_bound; lia|].
      cbn [bind]. rewrite (idx_ok_d tdefault) by lia. cbn [bind]. rewrite upd_ok by lia. cbn [bind]. rewrite ua_ok by lia. cbn [bind].
      unfold at_. replace ((3 * cy + cx) mod 3) with cx by (apply Z.mod_unique with cy; lia).
      replace ((3 * cy + cx) / 3) with cy by (apply Z.div_unique with cx; lia). reflexivity.
    + rewrite E. cbn [bind]. clear E body NX NY pos_x pos_y.
      destruct (addr_ok bx by_ Hbx Hby) as [-> R]. cbn [bind]. rewrite ua_ok by lia. cbn [bind].
      unfold slice_from at 1. set (mk := morton _ bx by_) in *.
      rewrite (proj2 (Z.leb_le 0 (mk * 8))), (proj2 (Z.leb_le (mk * 8) (zlen data))) by lia. cbn [andb bind].
      assert (IP : forall c, 0 <= c < 9 -> infoP is2 (near blk nbx nby bx by_ c) (nth (Z.to_nat c) li' tdefault)).
      { intros c Hc. rewrite Hl' by lia. unfold near, blk, pvr_blocks. apply Hinfo. apply addr_ok; apply Z.mod_pos_bound; lia. }
      assert (IS : infoP is2 (blk bx by_) (nth (Z.to_nat 4) li' tdefault)).
      { specialize (IP 4 ltac:(lia)). unfold near in IP. destruct (self_pos nbx nby bx by_ Hbx Hby) as [E1 E2]. rewrite E1, E2 in IP. exact IP. }
      assert (exists buf', (if is2 then applicate_color_2bpp m li' buf else applicate_color_4bpp m li' buf) = Ok buf' /\ zlen buf' = 32 /\
                forall t, 0 <= t < bwid is2 * 4 -> znth buf' t = tex bx by_ t) as (buf' & EB & LB & HB).
      { unfold tex. assert (L9 : zlen li' = 9) by lia.
        assert (CA : forall c, 0 <= c < 9 -> ta (nth (Z.to_nat c) li' tdefault) = color_a (near blk nbx nby bx by_ c)) by (intros; apply (infoP_colors is2); auto).
        assert (CB : forall c, 0 <= c < 9 -> tb (nth (Z.to_nat c) li' tdefault) = color_b (near blk nbx nby bx by_ c)) by (intros; apply (infoP_colors is2); auto).
        pose proof blk_bytes as BB. clear St tex Cx. clear Ex. destruct is2; cbn [bwid pixP infoP] in *.
        - apply apply2_ok; auto.
        - apply apply4_ok; auto. }
      rewrite EB. cbn [bind].
      destruct (stored_step m (bwid is2) 4 w h tex image bx by_ im buf') as (im' & EC & St'); rewrite ?Cx, ?Cy; auto; try lia.
      rewrite EC. cbn [bind]. eexists; split; [reflexivity|]. rewrite Cx in St'. cbv iota. split; [lia|]. split; [auto|exact St'].
  - intros by_ st Hby. rewrite positions_ok by lia. cbn [bind]. reflexivity.
  - rewrite E. cbn [bind]. exists im. split; [reflexivity|].
    rewrite <- Cx, <- Cy in St. apply stored_all in St; [|lia|lia|lia|lia|lia]. destruct St as (L & H1 & H2).
    split; [auto|]. split; [|auto]. intros x y Hx Hy. rewrite H1 by auto. unfold tex. rewrite <- Ex, <- Ey.
    pose proof (Z.mod_pos_bound x (bwid is2) ltac:(lia)). pose proof (Z.mod_pos_bound y 4 ltac:(lia)).
    replace ((y mod 4 * bwid is2 + x mod bwid is2) mod bwid is2) with (x mod bwid is2) by (apply Z.mod_unique with (y mod 4); lia).
    replace ((y mod 4 * bwid is2 + x mod bwid is2) / bwid is2) with (y mod 4) by (apply Z.div_unique with (x mod bwid is2); lia).
    f_equal; [rewrite (Z.div_mod x (bwid is2)) at 3 by lia; lia|rewrite (Z.div_mod y 4) at 3 by lia; lia].
Qed.
End Decode.

(** ** Contracts *)
Lemma pvr_contract m is2 : pvr_decoder (bwid is2) (pixP is2) (fun data w h image => decode_pvrtc m data w h image is2).
Proof.
  intros data w h image p q S Hp Hq Ex Ey Hd Hi. rewrite decode_checks by auto.
  destruct (nb_nonneg is2 data w h image S) as (_ & _ & Nn & _). rewrite (proj2 (Z.ltb_ge _ _)) by (clear -Nn Hd; destruct is2; cbn [bwid] in *; lia).
  rewrite (proj2 (Z.ltb_ge _ _)) by lia.
  apply rest_ok; auto.
Qed.

Lemma mod2_range blk nbx nby x y : 0 <= mod2 blk nbx nby x y <= 8.
Proof.
  pose proof (stored2_at_range blk nbx nby) as R. unfold mod2. cbv zeta.
  pose proof (R x (y - 1)). pose proof (R x (y + 1)). pose proof (R (x - 1) y). pose proof (R (x + 1) y).
  destruct (_ && _); [|apply R]. clear R.
  repeat match goal with |- context [stored2_at ?a ?b ?c ?d ?e] => generalize dependent (stored2_at a b c d e); intros end.
  destruct (_ =? 0); [dlia|]. destruct (_ =? 1); dlia.
Qed.

Lemma channel_range bw nbx nby blk mv c x y : bw = 4 \/ bw = 8 -> 0 <= mv <= 8 -> 0 <= c < 4 ->
  0 <= pvr_channel bw nbx nby blk mv c x y <= 255.
Proof.
  intros Hw Hm Hc. unfold pvr_channel, pvr_blend.
  pose proof (up_a_range blk nbx nby bw c x y Hw Hc) as A. pose proof (up_b_range blk nbx nby bw c x y Hw Hc) as B.
  unfold up_a, up_b in A, B.
  generalize dependent (pvr_up bw nbx nby (fun i j => pvr_a (blk i j)) c x y).
  generalize dependent (pvr_up bw nbx nby (fun i j => pvr_b (blk i j)) c x y). intros b B a A.
  assert (0 <= a * (8 - mv) <= 255 * (8 - mv)) by (split; [apply Z.mul_nonneg_nonneg|apply Z.mul_le_mono_nonneg_r]; lia).
  assert (0 <= b * mv <= 255 * mv) by (split; [apply Z.mul_nonneg_nonneg|apply Z.mul_le_mono_nonneg_r]; lia).
  split; [apply Z.div_pos; lia|]. apply Z.lt_succ_r. apply Z.div_lt_upper_bound; lia.
Qed.

Lemma pvr_code m is2 data w h image : pvr_sane (bwid is2) data w h image ->
  let nbx := blocks w (bwid is2) in let nby := blocks h 4 in
  let run := decode_pvrtc m data w h image is2 in
  (zlen data < nbx * nby * bwid is2 -> run = Ok (Failed "The data buffer is too small!", image)) /\
  (nbx * nby * bwid is2 <= zlen data -> zlen image < w * h -> run = Ok (Failed "The image buffer is too small!", image)) /\
  (nbx * nby * bwid is2 <= zlen data -> w * h <= zlen image ->
    (0 < w -> 0 < h -> ~ (pow2 nbx /\ pow2 nby) ->
       run = Ok (Failed "The number of blocks of each side must be a power of 2!", image)) /\
    (pow2 nbx -> pow2 nby -> zlen data < nbx * nby * 8 -> run = Panic) /\
    (pow2 nbx -> pow2 nby -> nbx * nby * 8 <= zlen data ->
       exists image', run = Ok (Done, image') /\ zlen image' = zlen image) /\
    (m = Checked -> w = 0 \/ h = 0 /\ pow2 nbx -> run = Panic) /\
    (0 < w -> h = 0 -> ~ pow2 nbx -> run = Ok (Failed "The number of blocks of each side must be a power of 2!", image)) /\
    (m = Wrapping -> w = 0 \/ h = 0 -> w = 0 \/ pow2 nbx -> h = 0 \/ pow2 nby -> run = Ok (Done, image))).
Proof.
  intros S. cbv zeta.
  destruct (nb_nonneg is2 data w h image S) as (Nx & Ny & Nn & _).
  destruct (nb_pos is2 data w h image S) as (Px & Py).
  pose proof S as (_ & Hw & Hh & _).
  rewrite (decode_checks m is2 data w h image S).
  split; [intros H; rewrite (proj2 (Z.ltb_lt _ _)) by auto; reflexivity|].
  split; [intros H1 H2; rewrite (proj2 (Z.ltb_ge _ _)) by auto; rewrite (proj2 (Z.ltb_lt _ _)) by auto; reflexivity|].
  intros H1 H2. rewrite (proj2 (Z.ltb_ge _ _)) by auto; rewrite (proj2 (Z.ltb_ge _ _)) by auto.
  assert (w = 0 -> blocks w (bwid is2) = 0) by lia. assert (h = 0 -> blocks h 4 = 0) by lia.
  split; [|split; [|split; [|split; [|split]]]].
  - intros. apply rest_not_pow2; auto; lia.
  - intros (p & Hp & Ep) (q & Hq & Eq) Hd. apply (rest_short m is2 data w h image S p q); auto.
  - intros (p & Hp & Ep) (q & Hq & Eq) Hd. destruct (rest_ok m is2 data w h image S p q) as (im & E & L & _); auto.
    exists im. auto.
  - intros. apply rest_zero_checked; auto. intuition.
  - intros. apply rest_zero_failed; auto; lia.
  - intros. apply rest_zero_wrapping; auto; intuition.
Qed.

Lemma pvr2_sizes m data w h image : pvr_sane 8 data w h image -> 0 < w -> 0 < h ->
  exists st image', decode_pvrtc m data w h image true = Ok (st, image') /\
    (zlen data < blocks w 8 * blocks h 4 * 8 -> st <> Done).
Proof.
  intros S Hw Hh. destruct (pvr_code m true data w h image S) as (A & B & C). cbn [bwid] in *. cbv zeta in *.
  destruct (Z.lt_ge_cases (zlen data) (blocks w 8 * blocks h 4 * 8)) as [D|D].
  { rewrite (A D). do 2 eexists. split; [reflexivity|]. discriminate. }
  destruct (Z.lt_ge_cases (zlen image) (w * h)) as [I|I].
  { rewrite (B D I). do 2 eexists. split; [reflexivity|]. discriminate. }
  destruct (C D I) as (N & _ & P & _).
  destruct (nb_pos true data w h image S) as (Px & Py). cbn [bwid] in *.
  assert (Dec : forall n, 0 < n -> pow2 n \/ ~ pow2 n).
  { intros n Hn. destruct (Z.eq_dec (Z.land n (n - 1)) 0) as [E|E]; [left; apply land_pred_pow2; auto|].
    right. intros Q. apply E. apply pow2_test; auto. }
  destruct (Dec (blocks w 8) ltac:(lia)) as [X|X]; [destruct (Dec (blocks h 4) ltac:(lia)) as [Y|Y]|].
  - destruct (P X Y D) as (im & -> & _). do 2 eexists. split; [reflexivity|]. lia.
  - rewrite N by (auto; intros []; auto). do 2 eexists. split; [reflexivity|]. discriminate.
  - rewrite N by (auto; intros []; auto). do 2 eexists. split; [reflexivity|]. discriminate.
Qed.

Lemma address_bijection m p q : 0 <= p -> 0 <= q -> p + q <= 62 ->
  (forall x y, 0 <= x < 2 ^ p -> 0 <= y < 2 ^ q ->
     exists n, morton_index m x y (2 ^ Z.min p q) = Ok n /\ 0 <= n < 2 ^ p * 2 ^ q) /\
  (forall x y x' y' n, 0 <= x < 2 ^ p -> 0 <= y < 2 ^ q -> 0 <= x' < 2 ^ p -> 0 <= y' < 2 ^ q ->
     morton_index m x y (2 ^ Z.min p q) = Ok n -> morton_index m x' y' (2 ^ Z.min p q) = Ok n -> x = x' /\ y = y') /\
  (forall n, 0 <= n < 2 ^ p * 2 ^ q ->
     exists x y, 0 <= x < 2 ^ p /\ 0 <= y < 2 ^ q /\ morton_index m x y (2 ^ Z.min p q) = Ok n).
Proof.
  intros Hp Hq Hpq. assert (K : Z.of_nat (Z.to_nat (Z.min p q)) = Z.min p q) by lia. split; [|split].
  - intros x y Hx Hy. rewrite morton_index_ok by auto. eexists; split; [reflexivity|]. apply morton_range; auto.
  - intros x y x' y' n Hx Hy Hx' Hy' E E'. rewrite morton_index_ok in E, E' by auto. rewrite <- E' in E. injection E as E.
    apply (morton_inj _ p q x y x' y' K); auto.
  - intros n Hn. destruct (morton_surj _ p q n K Hn) as (x & y & Hx & Hy & E). exists x, y. split; [auto|]. split; [auto|].
    rewrite morton_index_ok by auto. f_equal. exact E.
Qed.

Lemma address_bits k x y i : 0 <= x -> 0 <= y -> 0 <= i < Z.of_nat k ->
  bits_at (morton k x y) (2 * i) 1 = bits_at y i 1 /\ bits_at (morton k x y) (2 * i + 1) 1 = bits_at x i 1.
Proof.
  intros Hx Hy H. pose proof (morton_bits k x y (Z.to_nat i) ltac:(lia) Hx Hy) as E. rewrite !Z2Nat.id in E by lia.
  unfold bits_at. rewrite div_pow_split by lia. rewrite pow4 in E by lia. change (2 ^ 1) with 2.
  revert E. generalize (morton k x y / 2 ^ (2 * i)) (y / 2 ^ i) (x / 2 ^ i). clear. intros. dlia.
Qed.

Lemma channel_byte bw nbx nby blk mv c x y : bw = 4 \/ bw = 8 -> 0 <= mv <= 8 -> 0 <= c < 4 ->
  is_byte (pvr_channel bw nbx nby blk mv c x y).
Proof. intros. pose proof (channel_range bw nbx nby blk mv c x y). unfold is_byte. lia. Qed.

Lemma pvr_total m is2 data w h image :
  pvr_sane (bwid is2) data w h image -> pow2 (blocks w (bwid is2)) -> pow2 (blocks h 4) ->
  blocks w (bwid is2) * blocks h 4 * 8 <= zlen data -> w * h <= zlen image ->
  exists image', decode_pvrtc m data w h image is2 = Ok (Done, image') /\ zlen image' = zlen image /\
    (forall x y, 0 <= x < w -> 0 <= y < h -> exists r g b a,
       is_byte r /\ is_byte g /\ is_byte b /\ is_byte a /\ znth image' (y * w + x) = rgba r g b a) /\
    (forall j, w * h <= j < zlen image -> znth image' j = znth image j).
Proof.
  intros S (p & Hp & Ep) (q & Hq & Eq) Hd Hi.
  destruct (pvr_contract m is2 data w h image p q) as (im & E & L & P & F); auto.
  exists im. split; [auto|]. split; [auto|]. split; [|auto].
  intros x y Hx Hy. rewrite P by auto. destruct is2; cbn [pixP].
  - unfold pvr2_pixel. do 4 eexists. repeat split; try apply channel_byte; auto; try lia; apply mod2_range.
  - unfold pvr4_pixel. cbv zeta.
    pose proof (Z.mod_pos_bound x 4 ltac:(lia)). pose proof (Z.mod_pos_bound y 4 ltac:(lia)).
    do 4 eexists. split; [|split; [|split; [|split]]]; [..|reflexivity].
    1-3: apply channel_byte; auto; [apply mod4_range; lia|lia].
    destruct (punch4 _ _); [unfold is_byte; lia|]. apply channel_byte; auto; [apply mod4_range; lia|lia].
Qed.
