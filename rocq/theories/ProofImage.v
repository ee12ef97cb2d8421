(** * Facts about every 4x4 block format: size checks, placement, locality *)
From Verif Require Import Base BaseLemmas BitLemmas ModelColor SpecImage ProofDecoder SpecBc ModelBc ProofBc
  ProofBcImage ProofBlock ModelEtc SpecEtc ProofEtcImage ModelBc7 ProofBc7Image SpecFormats.

(** What is known of one entry. *)
Definition entry_ok (m : build) (f : fmt) : Prop :=
  let '(raw, bd, dec) := f in
  0 < raw <= 16 /\ dec = block_decoder m 4 4 raw bd /\ exists I tex, implements 16 raw bd I tex.

Lemma entry_intro m raw bd dec I tex : 0 < raw <= 16 -> dec = block_decoder m 4 4 raw bd ->
  implements 16 raw bd I tex -> entry_ok m (raw, bd, dec).
Proof. intros. split; [auto|]. split; [auto|]. eauto. Qed.

Lemma formats_ok m : Forall (entry_ok m) (formats m).
Proof.
  unfold formats.
  apply Forall_cons; [refine (entry_intro m _ _ _ _ _ _ eq_refl (bc1_impl m)); lia|].
  apply Forall_cons; [refine (entry_intro m _ _ _ _ _ _ eq_refl (bc1a_impl m)); lia|].
  apply Forall_cons; [refine (entry_intro m _ _ _ _ _ _ eq_refl (bc2_impl m)); lia|].
  apply Forall_cons; [refine (entry_intro m _ _ _ _ _ _ eq_refl (bc3_impl m)); lia|].
  apply Forall_cons; [refine (entry_intro m _ _ _ _ _ _ eq_refl (bc4_impl m)); lia|].
  apply Forall_cons; [refine (entry_intro m _ _ _ _ _ _ eq_refl (bc5_impl m)); lia|].
  apply Forall_cons; [refine (entry_intro m _ _ _ _ _ _ eq_refl (atc_rgb4_impl m)); lia|].
  apply Forall_cons; [refine (entry_intro m _ _ _ _ _ _ eq_refl (atc_rgba8_impl m)); lia|].
  apply Forall_cons; [refine (entry_intro m _ _ _ _ _ _ eq_refl (etc1_impl m)); lia|].
  apply Forall_cons; [refine (entry_intro m _ _ _ _ _ _ eq_refl (etc2_rgb_impl m)); lia|].
  apply Forall_cons; [refine (entry_intro m _ _ _ _ _ _ eq_refl (etc2_rgba1_impl m)); lia|].
  apply Forall_cons; [refine (entry_intro m _ _ _ _ _ _ eq_refl (etc2_rgba8_impl m)); lia|].
  apply Forall_cons; [refine (entry_intro m _ _ _ _ _ _ eq_refl (eacr_impl m)); lia|].
  apply Forall_cons; [refine (entry_intro m _ _ _ _ _ _ eq_refl (eacr_signed_impl m)); lia|].
  apply Forall_cons; [refine (entry_intro m _ _ _ _ _ _ eq_refl (eacrg_impl m)); lia|].
  apply Forall_cons; [refine (entry_intro m _ _ _ _ _ _ eq_refl (eacrg_signed_impl m)); lia|].
  apply Forall_cons; [refine (entry_intro m _ _ _ _ _ _ eq_refl (bc7_impl m)); lia|].
  apply Forall_nil.
Qed.

Lemma formats_impl m raw bd dec : In (raw, bd, dec) (formats m) ->
  0 < raw <= 16 /\ dec = block_decoder m 4 4 raw bd /\ exists I tex, implements 16 raw bd I tex.
Proof. intros H. exact (proj1 (Forall_forall _ _) (formats_ok m) _ H). Qed.

Lemma formats_image m raw bd dec : In (raw, bd, dec) (formats m) ->
  exists I tex, implements 16 raw bd I tex /\ image_decoder 4 4 raw tex dec /\ 0 < raw <= 16.
Proof.
  intros H. destruct (formats_impl m raw bd dec H) as (Hr & -> & I & tex & Himp).
  exists I, tex. split; [auto|]. split; [|auto]. apply (bcn_image m 16 raw bd I tex Himp eq_refl). lia.
Qed.

Lemma image_cases m raw bd dec data w h image : In (raw, bd, dec) (formats m) -> sane raw data w h image ->
  (zlen data < blocks w 4 * blocks h 4 * raw ->
     dec data w h image = Ok (Failed "Not enough data to decode image!", image)) /\
  (blocks w 4 * blocks h 4 * raw <= zlen data -> zlen image < w * h ->
     dec data w h image = Ok (Failed "Image buffer is too small!", image)) /\
  (blocks w 4 * blocks h 4 * raw <= zlen data -> w * h <= zlen image ->
     exists image', dec data w h image = Ok (Done, image')).
Proof.
  intros H (S1 & S2 & S3 & S4 & S5 & S6).
  destruct (formats_image _ _ _ _ H) as (I & tex & _ & Hd & _).
  destruct (Hd data w h image S1 S2 S3 S4 S5 S6) as (C1 & C2 & C3).
  do 2 (split; [auto|]). intros L1 L2. destruct (C3 L1 L2) as (im & E & _). eauto.
Qed.

Lemma image_exact_cases m raw bd dec data w h image : In (raw, bd, dec) (formats m) -> sane raw data w h image ->
  exists st image', dec data w h image = Ok (st, image') /\
    (st = Failed "Not enough data to decode image!" <-> zlen data < blocks w 4 * blocks h 4 * raw) /\
    (st = Failed "Image buffer is too small!" <->
       blocks w 4 * blocks h 4 * raw <= zlen data /\ zlen image < w * h) /\
    (st = Done <-> blocks w 4 * blocks h 4 * raw <= zlen data /\ w * h <= zlen image).
Proof.
  intros H S. destruct (image_cases m raw bd dec data w h image H S) as (C1 & C2 & C3).
  destruct (Z.lt_ge_cases (zlen data) (blocks w 4 * blocks h 4 * raw)) as [L|L].
  - do 2 eexists; split; [apply C1; auto|]. repeat split; try discriminate; try lia.
  - destruct (Z.lt_ge_cases (zlen image) (w * h)) as [L'|L'].
    + do 2 eexists; split; [apply C2; auto|]. repeat split; try discriminate; try lia.
    + destruct (C3 L L') as (im & E). do 2 eexists; split; [exact E|]. repeat split; try discriminate; try lia.
Qed.

(** [Done] means the checks passed and the picture is stored. *)
Lemma image_done m raw bd dec data w h image image' : In (raw, bd, dec) (formats m) -> sane raw data w h image ->
  dec data w h image = Ok (Done, image') ->
  blocks w 4 * blocks h 4 * raw <= zlen data /\ w * h <= zlen image /\
  exists I tex, implements 16 raw bd I tex /\ picture 4 4 raw tex data w h image image'.
Proof.
  intros H S E. destruct S as (S1 & S2 & S3 & S4 & S5 & S6).
  destruct (formats_image _ _ _ _ H) as (I & tex & Hi & Hd & _).
  destruct (Hd data w h image S1 S2 S3 S4 S5 S6) as (C1 & C2 & C3).
  destruct (Z.lt_ge_cases (zlen data) (blocks w 4 * blocks h 4 * raw)) as [L|L].
  { rewrite C1 in E by auto. discriminate. }
  destruct (Z.lt_ge_cases (zlen image) (w * h)) as [L'|L'].
  { rewrite C2 in E by auto. discriminate. }
  destruct (C3 L L') as (im & E' & P). rewrite E in E'. injection E' as <-.
  do 2 (split; [lia|]). eauto.
Qed.

Lemma block_bytes_len raw k data : 0 <= raw -> 0 <= k -> raw * (k + 1) <= zlen data ->
  zlen (block_bytes raw k data) = raw.
Proof.
  intros. unfold block_bytes. rewrite zlen_firstn, zlen_skipn.
  assert (0 <= raw * k) by (apply Z.mul_nonneg_nonneg; auto). lia.
Qed.
Lemma block_bytes_bytes raw k data : bytes data -> bytes (block_bytes raw k data).
Proof. intros. apply bytes_firstn, bytes_skipn; auto. Qed.

Lemma blocks_index w h x y : 0 <= x < w -> 0 <= y < h ->
  0 <= y / 4 * blocks w 4 + x / 4 < blocks w 4 * blocks h 4.
Proof.
  intros Hx Hy. unfold blocks.
  assert (0 <= x / 4 < (w + 4 - 1) / 4) by dlia.
  assert (0 <= y / 4 < (h + 4 - 1) / 4) by dlia.
  generalize dependent ((w + 4 - 1) / 4); generalize dependent ((h + 4 - 1) / 4);
  generalize dependent (x / 4); generalize dependent (y / 4). intros. nia.
Qed.

Lemma image_pixels m raw bd dec data w h image image' : In (raw, bd, dec) (formats m) ->
  sane raw data w h image -> dec data w h image = Ok (Done, image') ->
  forall x y, 0 <= x < w -> 0 <= y < h ->
  exists out, bd (block_bytes raw (y / 4 * blocks w 4 + x / 4) data) fresh_block = Ok out /\
    znth image' (y * w + x) = znth out (y mod 4 * 4 + x mod 4).
Proof.
  intros H S E x y Hx Hy.
  destruct (formats_impl _ _ _ _ H) as (Hr & _ & _).
  destruct (image_done _ _ _ _ _ _ _ _ _ H S E) as (L & L' & I & tex & [HI Hi] & (_ & Hp & _)).
  destruct S as (S1 & _).
  pose proof (blocks_index w h x y Hx Hy) as Hk.
  set (k := y / 4 * blocks w 4 + x / 4) in *.
  assert (zlen (block_bytes raw k data) = raw) as Lb.
  { apply block_bytes_len; try lia.
    assert (raw * (k + 1) <= raw * (blocks w 4 * blocks h 4)) by (apply Z.mul_le_mono_nonneg_l; lia). lia. }
  destruct (Hi (block_bytes raw k data) fresh_block) as (out & Eo & _ & Lo & No).
  - apply block_bytes_bytes; auto.
  - lia.
  - exact HI.
  - exists out. split; [auto|]. rewrite Hp by auto. fold k.
    pose proof (Z.mod_pos_bound x 4 ltac:(lia)). pose proof (Z.mod_pos_bound y 4 ltac:(lia)).
    rewrite No by lia. f_equal. symmetry. apply firstn_all2. unfold zlen in Lb. lia.
Qed.

Lemma image_frame m raw bd dec data w h image st image' : In (raw, bd, dec) (formats m) ->
  sane raw data w h image -> dec data w h image = Ok (st, image') ->
  zlen image' = zlen image /\
  (forall j, w * h <= j < zlen image -> znth image' j = znth image j) /\
  (st <> Done -> image' = image).
Proof.
  intros H S E. destruct (image_cases m raw bd dec data w h image H S) as (C1 & C2 & C3).
  destruct (Z.lt_ge_cases (zlen data) (blocks w 4 * blocks h 4 * raw)) as [L|L].
  { rewrite C1 in E by auto. injection E as <- <-. auto. }
  destruct (Z.lt_ge_cases (zlen image) (w * h)) as [L'|L'].
  { rewrite C2 in E by auto. injection E as <- <-. auto. }
  destruct (C3 L L') as (im & E'). rewrite E in E'. injection E' as -> ->.
  destruct (image_done _ _ _ _ _ _ _ _ _ H S E) as (_ & _ & I & tex & _ & (P1 & _ & P3)).
  split; [auto|]. split; [auto|]. intros []; auto.
Qed.

Lemma index_decompose w h j : 0 <= w -> 0 <= j < w * h -> exists x y, 0 <= x < w /\ 0 <= y < h /\ j = y * w + x.
Proof.
  intros Hw Hj. assert (0 < w) by (destruct (Z.eq_dec w 0); subst; lia). exists (j mod w), (j / w).
  pose proof (Z.mod_pos_bound j w ltac:(lia)). split; [auto|].
  split; [split; [apply Z.div_pos; lia|apply Z.div_lt_upper_bound; lia]|].
  pose proof (Z.div_mod j w ltac:(lia)). lia.
Qed.

(** Same result for data agreeing on the needed prefix. *)
Lemma firstn_firstn_le {A} (l : list A) a b : (a <= b)%nat -> firstn a (firstn b l) = firstn a l.
Proof. intros. rewrite firstn_firstn. f_equal. lia. Qed.

Lemma block_bytes_prefix raw k n data : 0 <= raw -> 0 <= k -> raw * (k + 1) <= n ->
  block_bytes raw k (firstn (Z.to_nat n) data) = block_bytes raw k data.
Proof.
  intros Hr Hk Hn. unfold block_bytes. assert (0 <= raw * k) by (apply Z.mul_nonneg_nonneg; auto).
  rewrite skipn_firstn_comm. apply firstn_firstn_le. lia.
Qed.

Lemma image_ignores_rest m raw bd dec data w h image : In (raw, bd, dec) (formats m) ->
  sane raw data w h image -> blocks w 4 * blocks h 4 * raw <= zlen data ->
  dec data w h image = dec (firstn (Z.to_nat (blocks w 4 * blocks h 4 * raw)) data) w h image.
Proof.
  intros H S L. set (need := blocks w 4 * blocks h 4 * raw) in *.
  destruct (formats_image _ _ _ _ H) as (I & tex & _ & Hd & Hr).
  destruct S as (S1 & S2 & S3 & S4 & S5 & S6).
  assert (0 <= need).
  { unfold need. apply Z.mul_nonneg_nonneg; [apply Z.mul_nonneg_nonneg|lia]; unfold blocks; apply Z.div_pos; lia. }
  assert (zlen (firstn (Z.to_nat need) data) = need) as Lf by (rewrite zlen_firstn; lia).
  destruct (Hd data w h image S1 S2 S3 S4 S5 S6) as (_ & C2 & C3).
  destruct (Hd (firstn (Z.to_nat need) data) w h image) as (_ & D2 & D3); auto using bytes_firstn.
  rewrite Lf in *. fold need in C2, C3, D2, D3.
  destruct (Z.lt_ge_cases (zlen image) (w * h)) as [L'|L'].
  { rewrite C2, D2 by lia. auto. }
  destruct C3 as (im & -> & (P1 & P2 & P3)); try lia.
  destruct D3 as (im' & -> & (Q1 & Q2 & Q3)); try lia.
  do 2 f_equal. apply znth_ext; [lia|]. intros j Hj.
  destruct (Z.lt_ge_cases j (w * h)) as [Lj|Lj].
  - destruct (index_decompose w h j) as (x & y & Hx & Hy & ->); try lia.
    rewrite P2, Q2 by auto. pose proof (blocks_index w h x y Hx Hy) as Hk.
    rewrite block_bytes_prefix; auto; try lia.
    unfold need. rewrite Z.mul_comm. apply Z.mul_le_mono_nonneg_r; lia.
  - rewrite P3, Q3 by lia. auto.
Qed.

Lemma image_local m raw bd dec data1 data2 w h image1 image2 image1' image2' :
  In (raw, bd, dec) (formats m) -> sane raw data1 w h image1 -> sane raw data2 w h image2 ->
  dec data1 w h image1 = Ok (Done, image1') -> dec data2 w h image2 = Ok (Done, image2') ->
  forall bx by_, block_bytes raw (by_ * blocks w 4 + bx) data1 = block_bytes raw (by_ * blocks w 4 + bx) data2 ->
  forall x y, 0 <= x < w -> 0 <= y < h -> x / 4 = bx -> y / 4 = by_ ->
    znth image1' (y * w + x) = znth image2' (y * w + x).
Proof.
  intros H S1 S2 E1 E2 bx by_ Hb x y Hx Hy <- <-.
  destruct (image_pixels _ _ _ _ _ _ _ _ _ H S1 E1 x y Hx Hy) as (o1 & F1 & ->).
  destruct (image_pixels _ _ _ _ _ _ _ _ _ H S2 E2 x y Hx Hy) as (o2 & F2 & ->).
  rewrite Hb in F1. rewrite F1 in F2. injection F2 as ->. auto.
Qed.

(** ** Dimensions too large for the data *)
Lemma small_dims raw data w h image : 0 < raw <= 16 -> bytes data -> 0 <= w < 2 ^ 31 -> 0 <= h < 2 ^ 31 ->
  4 * zlen image < 2 ^ 63 -> sane raw data w h image.
Proof.
  intros Hr Hb Hw Hh Hi. unfold sane, blocks.
  assert (0 <= (w + 4 - 1) / 4 <= 2 ^ 29) by (change (2 ^ 29) with 536870912; change (2 ^ 31) with 2147483648 in *; dlia).
  assert (0 <= (h + 4 - 1) / 4 <= 2 ^ 29) by (change (2 ^ 29) with 536870912; change (2 ^ 31) with 2147483648 in *; dlia).
  split; [auto|]. split; [lia|]. split; [lia|]. split; [auto|].
  generalize dependent ((w + 4 - 1) / 4); generalize dependent ((h + 4 - 1) / 4); intros a Ha b Hb'.
  assert (b * a <= 2 ^ 29 * 2 ^ 29) by (apply Z.mul_le_mono_nonneg; lia).
  assert (0 <= b * a) by (apply Z.mul_nonneg_nonneg; lia).
  split.
  - assert (b * a * raw <= 2 ^ 29 * 2 ^ 29 * 16) by (apply Z.mul_le_mono_nonneg; lia).
    change (2 ^ 29 * 2 ^ 29 * 16) with (2 ^ 62) in *. lia.
  - assert (w * h <= 2 ^ 31 * 2 ^ 31) by (apply Z.mul_le_mono_nonneg; lia).
    change (2 ^ 31 * 2 ^ 31) with (2 ^ 62) in *. lia.
Qed.

(** 2^34 x 2^34 texels, no data at all: every product is 0 modulo 2^64. *)
Lemma formats_empty m : Forall (fun f : fmt => let '(raw, bd, dec) := f in bd [] (repeat (color 0 0 0 255) 16) = Panic)
  (formats m).
Proof. unfold formats. destruct m; repeat (apply Forall_cons; [vm_compute; reflexivity|]); apply Forall_nil. Qed.

Lemma huge_panics m raw bd dec : In (raw, bd, dec) (formats m) -> dec [] (2 ^ 34) (2 ^ 34) [] = Panic.
Proof.
  intros H. destruct (formats_impl _ _ _ _ H) as (Hr & -> & _).
  pose proof (proj1 (Forall_forall _ _) (formats_empty m) _ H) as Hbd. cbv beta iota in Hbd.
  unfold block_decoder.
  replace (div_ceil (2 ^ 34) 4) with (2 ^ 32) by reflexivity.
  destruct m.
  { reflexivity. }
  replace (ua Wrapping 64 (2 ^ 32 * 2 ^ 32)) with (Ok 0 : res Z) by reflexivity. cbn [bind].
  rewrite Z.mul_0_l. rewrite ua_ok by lia. cbn [bind].
  replace (zlen (@nil Z) <? 0) with false by reflexivity.
  replace (ua Wrapping 64 (2 ^ 34 * 2 ^ 34)) with (Ok 0 : res Z) by reflexivity. cbn [bind].
  replace (zlen (@nil Z) <? 0) with false by reflexivity.
  rewrite for_range_cons by lia.
  rewrite for_range_cons by lia.
  replace (slice_from (@nil Z) 0) with (Ok (@nil Z) : res (list Z)) by reflexivity. cbn [bind].
  change (Z.to_nat (4 * 4)) with 16%nat.
  rewrite Hbd. reflexivity.
Qed.

Lemma huge_need m raw bd dec : In (raw, bd, dec) (formats m) ->
  0 < blocks (2 ^ 34) 4 * blocks (2 ^ 34) 4 * raw.
Proof.
  intros H. destruct (formats_impl _ _ _ _ H) as (Hr & _).
  replace (blocks (2 ^ 34) 4) with (2 ^ 32) by reflexivity. lia.
Qed.

Lemma confined_all m :
  block_confined 8 (decode_bc1_block m) /\ block_confined 8 (decode_bc1a_block m) /\
  block_confined 16 (decode_bc2_block m) /\ block_confined 8 (decode_atc_rgb4_block m) /\
  block_confined 8 (decode_etc1_block m) /\ block_confined 8 (decode_etc2_rgb_block m) /\
  block_confined 8 (decode_etc2_rgba1_block m) /\ block_confined 16 (decode_etc2_rgba8_block m) /\
  block_confined 8 (decode_eacr_block m) /\ block_confined 8 (decode_eacr_signed_block m) /\
  block_confined 16 (decode_eacrg_block m) /\ block_confined 16 (decode_eacrg_signed_block m) /\
  block_confined 16 (decode_bc7_block m).
Proof.
  exact (conj (proj2 (bc1_contract m)) (conj (proj2 (bc1a_contract m)) (conj (proj2 (bc2_contract m))
    (conj (proj2 (atc_rgb4_contract m)) (conj (proj2 (etc1_contract m)) (conj (proj2 (etc2_rgb_contract m))
    (conj (proj2 (etc2_rgba1_contract m)) (conj (proj2 (etc2_rgba8_contract m)) (conj (proj2 (eacr_contract m))
    (conj (proj2 (eacr_signed_contract m)) (conj (proj2 (eacrg_contract m)) (conj (proj2 (eacrg_signed_contract m)) (proj2 (bc7_contract m)))))))))))))).
Qed.
