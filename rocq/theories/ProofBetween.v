(** * Proofs about interpolated channels. *)
From Verif Require Import Base BaseLemmas ModelColor SpecImage SpecBc SpecEtc SpecBits SpecBptc SpecBc7 SpecPvrtc SpecPvrShift SpecCut ProofCut ProofChannels ProofBc7Image ProofPvrInfo ProofPvrtc SpecBetween.

Lemma channels_of r g b a c : is_byte r -> is_byte g -> is_byte b -> is_byte a -> 0 <= c < 4 ->
  channel c (rgba r g b a) = if c =? 0 then r else if c =? 1 then g else if c =? 2 then b else a.
Proof. intros R G B A Hc. destruct (channels r g b a R G B A) as (_ & E1 & E2 & E3 & E4). unfold channel. rewrite E1, E2, E3, E4. reflexivity. Qed.

Lemma stays raw c tex e0 e1 except dec : 0 < raw -> image_decoder 4 4 raw tex dec ->
  (forall b t, bytes b -> zlen b = raw -> 0 <= t < 16 -> except b t \/ between (e0 b t) (e1 b t) (channel c (tex b t))) -> stays_between raw c e0 e1 except dec.
Proof.
  intros Hr HD HT data w h image image' S E x y Hx Hy b t.
  destruct (decodes_done 4 4 raw (fun _ => True) tex dec data w h image image' (decodes_all _ _ _ _ _ HD) S (fun _ _ => I) E) as (R & _ & _ & PP & _).
  rewrite PP by assumption. fold b. fold t. destruct S as (B & _).
  pose proof (blocks_above w 4 x ltac:(lia) Hx) as X1. pose proof (blocks_above h 4 y ltac:(lia) Hy) as Y1.
  pose proof (below_product (y / 4) (x / 4) _ _ Y1 X1) as K.
  apply HT; [unfold b, block_bytes; apply bytes_firstn, bytes_skipn, B| |unfold t; clear; Z.to_euclidean_division_equations; lia].
  unfold b, block_bytes. set (k := y / 4 * blocks w 4 + x / 4) in *. assert (0 <= raw * k) by (apply Z.mul_nonneg_nonneg; lia).
  pose proof (Z.mul_le_mono_nonneg_r (k + 1) (blocks h 4 * blocks w 4) raw ltac:(lia) ltac:(lia)). rewrite zlen_firstn, zlen_skipn, !Z2Nat.id by lia. lia.
Qed.

(** ** BC1-BC5 and ATC *)
Lemma third e0 e1 : between e0 e1 ((2 * e0 + e1) / 3) /\ between e0 e1 ((e0 + 2 * e1) / 3) /\ between e0 e1 ((e0 + e1) / 2).
Proof. unfold between. Z.to_euclidean_division_equations; lia. Qed.
Lemma ends e0 e1 : between e0 e1 e0 /\ between e0 e1 e1.
Proof. unfold between. lia. Qed.
Lemma mix_between four e0 e1 s : 0 <= s < 4 -> (four = false /\ s = 3) \/ between e0 e1 (bc1_mix four e0 e1 s).
Proof.
  intros Hs. unfold bc1_mix. destruct (third e0 e1) as (T1 & T2 & T3). destruct (ends e0 e1) as (E1 & E2).
  destruct (Z.eqb_spec s 0); [right; exact E1|]. destruct (Z.eqb_spec s 1); [right; exact E2|].
  destruct (Z.eqb_spec s 2); [right; destruct four; assumption|]. destruct four; [right; exact T2|left; split; [reflexivity|lia]].
Qed.
Lemma index2_range b o t : 0 <= index2 b o t < 4.
Proof. apply Z.mod_pos_bound. lia. Qed.
Lemma bc1_between b o t a c : bytes b -> is_byte a -> 0 <= c < 3 ->
  black3 o b t \/ between (end565 o c b t) (end565 (o + 2) c b t) (channel c (rgba (bc1_r b o t) (bc1_g b o t) (bc1_b b o t) a)).
Proof.
  intros B A Hc. destruct (bc1_bytes b o t B) as (R & G & Bl). rewrite channels_of by (assumption || lia).
  assert (forall e0 e1, black3 o b t \/ between e0 e1 (bc1_mix (bc1_four b o) e0 e1 (index2 b (o + 4) t))) as M.
  { intros e0 e1. destruct (mix_between (bc1_four b o) e0 e1 _ (index2_range b (o + 4) t)) as [[F I]|H]; [left; split; [unfold bc1_four in F; apply Z.ltb_ge in F; exact F|exact I]|right; exact H]. }
  unfold end565, c565. destruct (Z.eqb_spec c 0); [apply M|]. destruct (Z.eqb_spec c 1); [apply M|]. destruct (Z.eqb_spec c 2); [apply M|lia].
Qed.
Lemma ramp_between a0 a1 s : 0 <= s < 8 -> (a0 <= a1 /\ 6 <= s) \/ between a0 a1 (ramp a0 a1 s).
Proof.
  intros Hs. unfold ramp. destruct (Z.eqb_spec s 0); [right; apply ends|]. destruct (Z.eqb_spec s 1); [right; apply ends|].
  assert (s = 2 \/ s = 3 \/ s = 4 \/ s = 5 \/ s = 6 \/ s = 7) as Q by lia.
  destruct (Z.ltb_spec a1 a0).
  - right. unfold between. rewrite Z.min_r, Z.max_l by lia. split; [apply Z.div_le_lower_bound|apply Z.div_le_upper_bound]; destruct Q as [->|[->|[->|[->|[->| ->]]]]]; lia.
  - destruct (Z.eqb_spec s 6); [left; lia|]. destruct (Z.eqb_spec s 7); [left; lia|]. right. unfold between. rewrite Z.min_l, Z.max_r by lia. split; [apply Z.div_le_lower_bound|apply Z.div_le_upper_bound]; assert (s = 2 \/ s = 3 \/ s = 4 \/ s = 5) as [->|[->|[->| ->]]] by lia; lia.
Qed.
Lemma interp_between b o t : limit67 o b t \/ between (byte_end o b t) (byte_end (o + 1) b t) (interp8 b o t).
Proof. unfold limit67, byte_end, interp8. apply ramp_between. apply Z.mod_pos_bound. lia. Qed.
Lemma atc_bytes b o t a c : bytes b -> is_byte a -> 0 <= c < 3 ->
  mode_bit o b t \/ between (end555 o c b t) (end565 (o + 2) c b t) (channel c (atc_rgb atc_dark_code b o t a)).
Proof.
  intros B A Hc. unfold mode_bit, atc_rgb. cbn zeta. destruct (Z.leb_spec 32768 (le16 b o)) as [L|L]; [left; exact L|right].
  pose proof (le16_u16 b o B) as U0. pose proof (le16_u16 b (o + 2) B) as U1. destruct (ProofChannels.c565 _ U1) as (R1 & G1 & B1).
  assert (forall v k, is_byte (rep5 (v / k mod 32))) as D by (intros v k; apply rep5_byte, Z.mod_pos_bound; lia).
  pose proof (D (le16 b o) 1024) as D1. pose proof (D (le16 b o) 32) as D2. assert (is_byte (atc_b0 (le16 b o))) as D3 by (apply rep5_byte, Z.mod_pos_bound; lia).
  pose proof (index2_range b (o + 4) t) as I.
  rewrite channels_of by (first [apply atc_mix_byte; assumption|assumption|lia]).
  assert (forall x y, between x y (atc_mix atc_dark_code (atc_mode b o) x y (index2 b (o + 4) t))) as M.
  { intros x y. unfold atc_mode. rewrite (proj2 (Z.leb_gt 32768 (le16 b o)) L). unfold atc_mix. destruct (ends x y) as (E1 & E2).
    destruct (_ =? 0); [exact E1|]. destruct (_ =? 1); [unfold between; clear; Z.to_euclidean_division_equations; lia|]. destruct (_ =? 2); [unfold between; clear; Z.to_euclidean_division_equations; lia|exact E2]. }
  unfold end555, end565, c555, c565. destruct (Z.eqb_spec c 0); [apply M|]. destruct (Z.eqb_spec c 1); [apply M|]. destruct (Z.eqb_spec c 2); [apply M|lia].
Qed.

(** ** BC7 *)
Lemma lerp_between x y w : 0 <= w <= 64 -> between x y (lerp64 x y w).
Proof.
  intros Hw. unfold between, lerp64.
  assert (64 * Z.min x y <= x * (64 - w) + y * w <= 64 * Z.max x y) as R.
  { pose proof (Z.mul_le_mono_nonneg_r (Z.min x y) x (64 - w) ltac:(lia) ltac:(lia)) as H1. pose proof (Z.mul_le_mono_nonneg_r (Z.min x y) y w ltac:(lia) ltac:(lia)) as H2.
    pose proof (Z.mul_le_mono_nonneg_r x (Z.max x y) (64 - w) ltac:(lia) ltac:(lia)) as H3. pose proof (Z.mul_le_mono_nonneg_r y (Z.max x y) w ltac:(lia) ltac:(lia)) as H4. lia. }
  split; [apply Z.div_le_lower_bound; lia|]. apply Z.lt_succ_r, Z.div_lt_upper_bound; lia.
Qed.
Lemma bc7_between b t c : 0 <= c < 4 -> reserved7 b t \/ between (end7 0 c b t) (end7 1 c b t) (channel c (bc7_texel b t)).
Proof.
  intros Hc. unfold reserved7. destruct (Z.eq_dec (bc7_mode b) 8) as [e|n]; [left; exact e|right].
  assert (bc7_mode b < 8) as M8.
  { unfold bc7_mode in *. destruct (filter _ _) as [|i l] eqn:E; [lia|]. assert (In i (zrange 0 8)) as Hi by (apply (proj1 (filter_In (fun i => bits b i 1 =? 1) i (zrange 0 8))); rewrite E; left; reflexivity). apply in_zrange in Hi. lia. }
  unfold bc7_texel. rewrite (proj2 (Z.eqb_neq _ _) n). cbn zeta. rewrite channels_of by (first [apply bc7_channel_byte; assumption|lia]).
  assert (forall k, between (channel_endpoint b (bc7_mode b) k (2 * subset (bc7_mode b) (bc7_part b) t + 0)) (channel_endpoint b (bc7_mode b) k (2 * subset (bc7_mode b) (bc7_part b) t + 1)) (bc7_channel b k t)) as M.
  { intros k. rewrite Z.add_0_r. unfold bc7_channel. apply lerp_between. destruct (k =? 3); unfold alpha_weight, color_weight; destruct (bc7_isel b =? 1); auto using weight1_range, weight2_range. }
  unfold end7. assert (c = 0 \/ c = 1 \/ c = 2 \/ c = 3) as [->|[->|[->| ->]]] by lia; apply M.
Qed.

(** ** PVRTC *)
Lemma weighted c1 c2 c3 c4 v1 v2 v3 v4 lo hi : 0 <= c1 -> 0 <= c2 -> 0 <= c3 -> 0 <= c4 -> lo <= v1 <= hi -> lo <= v2 <= hi -> lo <= v3 <= hi -> lo <= v4 <= hi ->
  (c1 + c2 + c3 + c4) * lo <= c1 * v1 + c2 * v2 + c3 * v3 + c4 * v4 <= (c1 + c2 + c3 + c4) * hi.
Proof.
  intros C1 C2 C3 C4 V1 V2 V3 V4.
  assert (forall c v, 0 <= c -> lo <= v <= hi -> c * lo <= c * v <= c * hi) as K by (intros; split; apply Z.mul_le_mono_nonneg_l; lia).
  pose proof (K c1 v1 C1 V1). pose proof (K c2 v2 C2 V2). pose proof (K c3 v3 C3 V3). pose proof (K c4 v4 C4 V4). lia.
Qed.
Lemma up_between bw nbx nby col c x y lo hi : bw = 4 \/ bw = 8 ->
  (forall i j, 0 <= i <= 1 -> 0 <= j <= 1 -> lo <= col (((x - bw / 2) / bw + i) mod nbx) (((y - 2) / 4 + j) mod nby) c <= hi) ->
  rep_channel c lo <= pvr_up bw nbx nby col c x y <= rep_channel c hi.
Proof.
  intros Hb H. pose proof (H 0 0 ltac:(lia) ltac:(lia)) as V1. pose proof (H 1 0 ltac:(lia) ltac:(lia)) as V2. pose proof (H 0 1 ltac:(lia) ltac:(lia)) as V3. pose proof (H 1 1 ltac:(lia) ltac:(lia)) as V4.
  rewrite ?Z.add_0_r in *. unfold pvr_up, bilinear. cbn zeta.
  pose proof (Z.mod_pos_bound (x - bw / 2) bw ltac:(lia)) as FX. pose proof (Z.mod_pos_bound (y - 2) 4 ltac:(lia)) as FY.
  set (fx := (x - bw / 2) mod bw) in *. set (fy := (y - 2) mod 4) in *.
  pose proof (weighted ((bw - fx) * (4 - fy)) (fx * (4 - fy)) ((bw - fx) * fy) (fx * fy) _ _ _ _ lo hi ltac:(apply Z.mul_nonneg_nonneg; lia) ltac:(apply Z.mul_nonneg_nonneg; lia) ltac:(apply Z.mul_nonneg_nonneg; lia) ltac:(apply Z.mul_nonneg_nonneg; lia) V1 V2 V3 V4) as W.
  replace ((bw - fx) * (4 - fy) + fx * (4 - fy) + (bw - fx) * fy + fx * fy) with (4 * bw) in W by ring.
  set (v := _ + _ + _ + _) in *. clearbody v. clear - Hb W. unfold rep_channel, rep4, rep5.
  destruct Hb as [->| ->]; [change (4 =? 4) with true|change (8 =? 4) with false]; cbn iota; destruct (c =? 3); Z.to_euclidean_division_equations; lia.
Qed.
Lemma blend_between a b mv lo hi : 0 <= mv <= 8 -> lo <= a <= hi -> lo <= b <= hi -> lo <= pvr_blend a b mv <= hi.
Proof.
  intros Hm Ha Hb. unfold pvr_blend. pose proof (weighted (8 - mv) mv 0 0 a b a a lo hi ltac:(lia) ltac:(lia) ltac:(lia) ltac:(lia) Ha Hb Ha Ha) as W.
  replace ((8 - mv + mv + 0 + 0)) with 8 in W by ring. replace ((8 - mv) * a + mv * b + 0 * a + 0 * a) with (a * (8 - mv) + b * mv) in W by ring.
  split; [apply Z.div_le_lower_bound; lia|]. apply Z.div_le_upper_bound; lia.
Qed.
Lemma channel_between bw nbx nby blk mv c x y lo hi : bw = 4 \/ bw = 8 -> 0 <= mv <= 8 ->
  (forall i j, 0 <= i <= 1 -> 0 <= j <= 1 ->
     let b := blk (((x - bw / 2) / bw + i) mod nbx) (((y - 2) / 4 + j) mod nby) in lo <= pvr_a b c <= hi /\ lo <= pvr_b b c <= hi) ->
  rep_channel c lo <= pvr_channel bw nbx nby blk mv c x y <= rep_channel c hi.
Proof.
  intros Hb Hm H. unfold pvr_channel. apply blend_between; [exact Hm| |].
  - apply (up_between bw nbx nby (fun i j => pvr_a (blk i j))); [exact Hb|]. intros i j Hi Hj. exact (proj1 (H i j Hi Hj)).
  - apply (up_between bw nbx nby (fun i j => pvr_b (blk i j))); [exact Hb|]. intros i j Hi Hj. exact (proj2 (H i j Hi Hj)).
Qed.
Lemma pvr_within bw pix mv (clear : (Z -> Z -> list Z) -> Z -> Z -> bool) dec : bw = 4 \/ bw = 8 -> pvr_decoder bw pix dec ->
  (forall blk nbx nby x y, 0 <= mv blk nbx nby x y <= 8) ->
  (forall blk nbx nby x y, let ch c := pvr_channel bw nbx nby blk (mv blk nbx nby x y) c x y in pix blk nbx nby x y = rgba (ch 0) (ch 1) (ch 2) (if clear blk x y then 0 else ch 3)) ->
  pvr_between bw clear dec.
Proof.
  intros Hb HD HM HP data w h image p q S Hp Hq Bw Bh L I.
  destruct (HD data w h image p q S Hp Hq Bw Bh L I) as (image' & E & _ & P & _). exists image'. split; [exact E|]. intros x y c lo hi X Y Hc blk HB. rewrite P, HP by assumption. cbn zeta. fold blk.
  assert (forall k, 0 <= k < 4 -> is_byte (pvr_channel bw (2 ^ p) (2 ^ q) blk (mv blk (2 ^ p) (2 ^ q) x y) k x y)) as CB.
  { intros k Hk. pose proof (channel_range bw (2 ^ p) (2 ^ q) blk (mv blk (2 ^ p) (2 ^ q) x y) k x y Hb (HM _ _ _ _ _) Hk). unfold is_byte. lia. }
  pose proof (channel_between bw (2 ^ p) (2 ^ q) blk (mv blk (2 ^ p) (2 ^ q) x y) c x y lo hi Hb (HM _ _ _ _ _) HB) as K.
  rewrite channels_of by (first [apply CB; lia|destruct (clear blk x y); [exact byte_0|apply CB; lia]|exact Hc]).
  assert (c = 0 \/ c = 1 \/ c = 2 \/ c = 3) as [->|[->|[->| ->]]] by lia; cbn [Z.eqb Pos.eqb]; [right; exact K|right; exact K|right; exact K|].
  destruct (clear blk x y) eqn:C; [left; auto|right; exact K].
Qed.
