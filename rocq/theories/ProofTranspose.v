(** * Proofs about pictures with exchanged axes. *)
From Verif Require Import Base BaseLemmas ModelColor SpecImage SpecBc SpecEtc SpecCut ProofCrnGrid ProofCut ProofEncodeBc ProofChannels SpecTranspose SpecEncode ProofFlip.

Lemma across_range t : 0 <= t < 16 -> 0 <= across t < 16. Proof. unfold across. Z.to_euclidean_division_equations; lia. Qed.
Lemma across_twice t : 0 <= t < 16 -> across (across t) = t. Proof. unfold across. Z.to_euclidean_division_equations; lia. Qed.
Lemma across_parts t : 0 <= t < 16 -> across t / 4 = t mod 4 /\ across t mod 4 = t / 4. Proof. unfold across. Z.to_euclidean_division_equations; lia. Qed.

Definition tr_block (raw : Z) (tex : list Z -> Z -> Z) (f : list Z -> list Z) : Prop :=
  forall b, bytes b -> zlen b = raw -> bytes (f b) /\ zlen (f b) = raw /\ forall t, 0 <= t < 16 -> tex (f b) t = tex b (across t).

Lemma tr_image raw tex f dec : 0 < raw -> image_decoder 4 4 raw tex dec -> tr_block raw tex f -> transposes raw f dec.
Proof.
  intros Hraw HD HF data w h image image' other S E HO H4.
  pose proof (decodes_all _ _ _ _ _ HD) as HG.
  destruct (decodes_done 4 4 raw (fun _ => True) tex dec data w h image image' HG S (fun _ _ => I) E) as (R & RI & _ & PP & _).
  destruct S as (B & Hw & Hh & HI & HZ & HA).
  set (cols := blocks w 4) in *. set (rows := blocks h 4) in *.
  pose proof (blocks_nonneg w 4 ltac:(lia) ltac:(lia)) as Nc. fold cols in Nc. pose proof (blocks_nonneg h 4 ltac:(lia) ltac:(lia)) as Nr. fold rows in Nr.
  assert (0 <= cols * rows) as Nn by (apply Z.mul_nonneg_nonneg; lia).
  assert (forall k, 0 <= k < cols * rows -> 0 < rows /\ 0 <= k / rows < cols /\ 0 <= k mod rows < rows) as KK.
  { intros k Hk. assert (0 < rows) by (destruct (Z.eq_dec rows 0) as [e|e]; [rewrite e in Hk; lia|lia]). split; [assumption|]. split; [|apply Z.mod_pos_bound; lia]. split; [apply Z.div_pos; lia|apply Z.div_lt_upper_bound; lia]. }
  set (src := fun k => k mod rows * cols + k / rows).
  assert (forall k, 0 <= k < cols * rows -> 0 <= src k < rows * cols) as SR.
  { intros k Hk. destruct (KK k Hk) as (_ & K1 & K2). apply below_product; assumption. }
  assert (forall k, 0 <= k < cols * rows -> bytes (block_bytes raw (src k) data) /\ zlen (block_bytes raw (src k) data) = raw) as SB.
  { intros k Hk. pose proof (SR k Hk) as K. split; [unfold block_bytes; apply bytes_firstn, bytes_skipn, B|]. unfold block_bytes. rewrite zlen_firstn, zlen_skipn.
    assert (0 <= raw * src k) by (apply Z.mul_nonneg_nonneg; lia). pose proof (Z.mul_le_mono_nonneg_r (src k + 1) (rows * cols) raw ltac:(lia) ltac:(lia)). rewrite !Z2Nat.id by lia. lia. }
  assert (forall k, 0 <= k < cols * rows -> zlen (f (block_bytes raw (src k) data)) = raw) as FL by (intros k Hk; destruct (SB k Hk) as [b1 b2]; exact (proj1 (proj2 (HF _ b1 b2)))).
  assert (zlen (tr_data raw f cols rows data) = cols * rows * raw) as L.
  { unfold tr_data. rewrite (zlen_flat_map raw); [ring|exact Nn|exact FL]. }
  assert (forall k, 0 <= k < cols * rows -> block_bytes raw k (tr_data raw f cols rows data) = f (block_bytes raw (src k) data)) as BB.
  { intros k Hk. assert (0 <= raw * k) by (apply Z.mul_nonneg_nonneg; lia). pose proof (Z.mul_le_mono_nonneg_r (k + 1) (cols * rows) raw ltac:(lia) ltac:(lia)).
    unfold block_bytes at 1. apply znth_ext.
    - rewrite zlen_firstn, zlen_skipn, L, FL, !Z2Nat.id by lia. lia.
    - intros i Hi. rewrite zlen_firstn, zlen_skipn, L, !Z2Nat.id in Hi by lia. rewrite znth_firstn, znth_skipn, !Z2Nat.id by (rewrite ?Z2Nat.id; lia).
      unfold tr_data. rewrite (znth_flat_map raw); [|exact Nn|exact Hraw|exact FL|lia].
      replace (raw * k + i) with (k * raw + i) by ring. rewrite Z.div_add_l, (Z.div_small i), Z.add_0_r by lia. rewrite (Z.add_comm (k * raw)), Z.mod_add, (Z.mod_small i) by lia. reflexivity. }
  destruct (HG (tr_data raw f cols rows data) h w other) as (_ & _ & D3).
  { assert (bytes (tr_data raw f cols rows data)) as BF.
    { unfold tr_data. apply Forall_forall. intros v Hv. apply in_flat_map in Hv. destruct Hv as (k & Hk & Hv). apply in_zrange in Hk.
      destruct (SB k Hk) as [b1 b2]. exact (proj1 (Forall_forall _ _) (proj1 (HF _ b1 b2)) v Hv). }
    unfold sized. fold cols. fold rows. repeat split; try assumption; lia. }
  destruct D3 as (other' & E' & _ & PO & _); [fold cols; fold rows; lia|lia|intros k Hk; exact I|].
  exists other'. split; [exact E'|]. intros x y Hx Hy. rewrite PO by assumption. fold rows.
  pose proof (blocks_above w 4 x ltac:(lia) Hx) as X1. fold cols in X1. pose proof (blocks_above h 4 y ltac:(lia) Hy) as Y1. fold rows in Y1.
  pose proof (below_product (x / 4) (y / 4) cols rows X1 Y1) as K.
  assert (src (x / 4 * rows + y / 4) = y / 4 * cols + x / 4) as SE.
  { unfold src. rewrite Z.div_add_l, (Z.div_small (y / 4) rows Y1), Z.add_0_r by lia. rewrite (Z.add_comm (x / 4 * rows)), Z.mod_add, (Z.mod_small (y / 4) rows Y1) by lia. reflexivity. }
  rewrite BB by exact K. destruct (SB _ K) as [b1 b2]. rewrite SE in *.
  rewrite (proj2 (proj2 (HF _ b1 b2))) by (clear; Z.to_euclidean_division_equations; lia).
  rewrite PP by assumption. fold cols. f_equal. unfold across. clear. Z.to_euclidean_division_equations; lia.
Qed.

(** ** BC1-BC5 and ATC *)
Lemma below_tab n k f : 0 < n -> 0 <= k -> (forall i, 0 <= i < k -> 0 <= f i < n) -> below n (tab k f).
Proof.
  intros Hn Hk H i. destruct (Z.ltb_spec i 0) as [L|L]; [|destruct (Z.ltb_spec i k) as [M|M]].
  - unfold znth. replace (Z.to_nat i) with (Z.to_nat 0) by lia. change (0 <= znth (tab k f) 0 < n). destruct (Z.eq_dec k 0) as [->|N]; [vm_compute; intuition|rewrite znth_tab by lia; apply H; lia].
  - rewrite znth_tab by lia. apply H. lia.
  - unfold znth. rewrite nth_overflow; [lia|]. pose proof (zlen_tab k f) as Z1. unfold zlen in Z1. lia.
Qed.
Lemma le16_split b o : bytes b -> znth b o = le16 b o mod 256 /\ znth b (o + 1) = le16 b o / 256.
Proof. intros H. unfold le16. pose proof (bytes_znth b o H). pose proof (bytes_znth b (o + 1) H). Z.to_euclidean_division_equations; lia. Qed.
Lemma tr_colour_eq b : bytes b -> tr_colour b = colour_bytes (le16 b 0, le16 b 2) (tab 16 (fun t => index2 b 4 (across t))).
Proof.
  intros H. unfold tr_colour, colour_bytes. destruct (le16_split b 0 H) as [E0 E1]. destruct (le16_split b 2 H) as [E2 E3]. cbn [map fst snd]. change (0 + 1) with 1 in E1. change (2 + 1) with 3 in E3. rewrite <- E0, <- E1, <- E2, <- E3. reflexivity.
Qed.
Lemma tr_colour_index_below b : below 4 (tab 16 (fun t => index2 b 4 (across t))).
Proof. apply below_tab; [lia|lia|]. intros. apply Z.mod_pos_bound. lia. Qed.
Lemma tr_colour_ok b : bytes b -> bytes (tr_colour b) /\ zlen (tr_colour b) = 8.
Proof. intros H. rewrite tr_colour_eq by exact H. apply colour_bytes_ok; [split; apply le16_u16, H|apply tr_colour_index_below]. Qed.
Lemma tr_colour_le b : bytes b -> le16 (tr_colour b) 0 = le16 b 0 /\ le16 (tr_colour b) 2 = le16 b 2.
Proof. intros H. split; reflexivity. Qed.
Lemma tr_colour_index b t : bytes b -> 0 <= t < 16 -> index2 (tr_colour b) 4 t = index2 b 4 (across t).
Proof. intros H Ht. rewrite tr_colour_eq by exact H. rewrite colour_bytes_index by (apply tr_colour_index_below || exact Ht). rewrite znth_tab by lia. reflexivity. Qed.

Lemma tr_ramp_eq b : tr_ramp b = ramp_bytes (znth b 0, znth b 1) (tab 16 (fun t => index3 b 0 (across t))).
Proof. reflexivity. Qed.
Lemma tr_ramp_index_below b : below 8 (tab 16 (fun t => index3 b 0 (across t))).
Proof. apply below_tab; [lia|lia|]. intros. apply Z.mod_pos_bound. lia. Qed.
Lemma tr_ramp_ok b : bytes b -> bytes (tr_ramp b) /\ zlen (tr_ramp b) = 8.
Proof. intros H. rewrite tr_ramp_eq. apply ramp_bytes_ok. split; apply bytes_znth, H. Qed.
Lemma tr_ramp_value b t : 0 <= t < 16 -> interp8 (tr_ramp b) 0 t = interp8 b 0 (across t).
Proof. intros Ht. rewrite tr_ramp_eq, ramp_bytes_interp by (apply tr_ramp_index_below || exact Ht). rewrite znth_tab by lia. reflexivity. Qed.

Lemma tr_alpha_below b : below 16 (tab 16 (fun t => znth b (across t / 2) / 16 ^ (across t mod 2) mod 16)).
Proof. apply below_tab; [lia|lia|]. intros. apply Z.mod_pos_bound. lia. Qed.
Lemma tr_alpha_ok b : bytes (tr_alpha b) /\ zlen (tr_alpha b) = 8.
Proof. exact (nibble_bytes_ok _ (tr_alpha_below b)). Qed.
Lemma tr_alpha_value b t : 0 <= t < 16 -> bc2_alpha (tr_alpha b) t = bc2_alpha b (across t).
Proof. intros Ht. etransitivity; [exact (nibble_bytes_alpha _ t (tr_alpha_below b) Ht)|]. rewrite znth_tab by lia. reflexivity. Qed.

Lemma tr_bc1_part b t : bytes b -> 0 <= t < 16 -> bc1_r (tr_colour b) 0 t = bc1_r b 0 (across t) /\ bc1_g (tr_colour b) 0 t = bc1_g b 0 (across t) /\ bc1_b (tr_colour b) 0 t = bc1_b b 0 (across t).
Proof. intros H Ht. unfold bc1_r, bc1_g, bc1_b. change (0 + 4) with 4. rewrite tr_colour_index by assumption. auto. Qed.
Lemma tr_atc_part dark b t a : bytes b -> 0 <= t < 16 -> atc_rgb dark (tr_colour b) 0 t a = atc_rgb dark b 0 (across t) a.
Proof. intros H Ht. unfold atc_rgb. change (0 + 4) with 4. rewrite tr_colour_index by assumption. reflexivity. Qed.
Lemma tr_bc1 : tr_block 8 bc1_texel tr_colour.
Proof. intros b H L. destruct (tr_colour_ok b H) as [F1 F2]. split; [exact F1|]. split; [exact F2|]. intros t Ht. unfold bc1_texel. destruct (tr_bc1_part b t H Ht) as (-> & -> & ->). reflexivity. Qed.
Lemma tr_bc1a : tr_block 8 bc1a_texel tr_colour.
Proof.
  intros b H L. destruct (tr_colour_ok b H) as [F1 F2]. split; [exact F1|]. split; [exact F2|]. intros t Ht. unfold bc1a_texel. destruct (tr_bc1_part b t H Ht) as (-> & -> & ->).
  rewrite tr_colour_index by assumption. reflexivity.
Qed.
Lemma tr_atc dark : tr_block 8 (atc_rgb4_texel dark) tr_colour.
Proof. intros b H L. destruct (tr_colour_ok b H) as [F1 F2]. split; [exact F1|]. split; [exact F2|]. intros t Ht. apply tr_atc_part; assumption. Qed.
Lemma tr_bc4 : tr_block 8 bc4_texel tr_ramp.
Proof. intros b H L. destruct (tr_ramp_ok b H) as [F1 F2]. split; [exact F1|]. split; [exact F2|]. intros t Ht. unfold bc4_texel. rewrite tr_ramp_value by assumption. reflexivity. Qed.
Lemma tr_halves_block f g tex : (forall c, bytes c -> bytes (f c) /\ zlen (f c) = 8) -> (forall c, bytes c -> zlen c = 8 -> bytes (g c) /\ zlen (g c) = 8) ->
  (forall c d t, bytes c -> bytes d -> zlen c = 8 -> zlen d = 8 -> 0 <= t < 16 -> tex (f c ++ g d) t = tex (c ++ d) (across t)) -> tr_block 16 tex (tr_halves f g).
Proof.
  intros F G T b H L. destruct (bytes_split b H L) as (c & d & E & Bc & Bd & Lc & Ld & E1 & E2). unfold tr_halves. rewrite E1, E2.
  destruct (F c Bc) as [F1 F2]. destruct (G d Bd Ld) as [G1 G2]. split; [apply Forall_app; split; assumption|]. split; [rewrite zlen_app; lia|].
  intros t Ht. rewrite E. apply T; assumption.
Qed.
Lemma tr_bc2 : tr_block 16 bc2_texel (tr_halves tr_alpha tr_colour).
Proof.
  apply tr_halves_block; [intros; apply tr_alpha_ok|intros; apply tr_colour_ok; assumption|]. intros c d t Bc Bd Lc Ld Ht. pose proof (across_range t Ht) as Ho. unfold bc2_texel.
  pose proof (proj2 (tr_alpha_ok c)) as Lf. destruct (bc1_right _ (tr_colour d) t Lf ltac:(lia)) as (-> & -> & ->). destruct (bc1_right c d (across t) Lc ltac:(lia)) as (-> & -> & ->).
  destruct (tr_bc1_part d t Bd Ht) as (-> & -> & ->). rewrite !bc2_alpha_left by assumption. rewrite tr_alpha_value by exact Ht. reflexivity.
Qed.
Lemma tr_bc3 : tr_block 16 bc3_texel (tr_halves tr_ramp tr_colour).
Proof.
  apply tr_halves_block; [intros; apply tr_ramp_ok; assumption|intros; apply tr_colour_ok; assumption|]. intros c d t Bc Bd Lc Ld Ht. pose proof (across_range t Ht) as Ho. unfold bc3_texel.
  pose proof (proj2 (tr_ramp_ok c Bc)) as Lf. destruct (bc1_right _ (tr_colour d) t Lf ltac:(lia)) as (-> & -> & ->). destruct (bc1_right c d (across t) Lc ltac:(lia)) as (-> & -> & ->).
  destruct (tr_bc1_part d t Bd Ht) as (-> & -> & ->). rewrite !interp8_left by assumption. rewrite tr_ramp_value by assumption. reflexivity.
Qed.
Lemma tr_atca dark : tr_block 16 (atc_rgba8_texel dark) (tr_halves tr_ramp tr_colour).
Proof.
  apply tr_halves_block; [intros; apply tr_ramp_ok; assumption|intros; apply tr_colour_ok; assumption|]. intros c d t Bc Bd Lc Ld Ht. pose proof (across_range t Ht) as Ho. unfold atc_rgba8_texel.
  pose proof (proj2 (tr_ramp_ok c Bc)) as Lf. rewrite !atc_right, !interp8_left by (assumption || lia). rewrite tr_atc_part, tr_ramp_value by assumption. reflexivity.
Qed.
Lemma tr_bc5 : tr_block 16 bc5_texel (tr_halves tr_ramp tr_ramp).
Proof.
  apply tr_halves_block; [intros; apply tr_ramp_ok; assumption|intros; apply tr_ramp_ok; assumption|]. intros c d t Bc Bd Lc Ld Ht. unfold bc5_texel.
  pose proof (proj2 (tr_ramp_ok c Bc)) as Lf. rewrite !interp8_left, !interp8_right by assumption. rewrite !tr_ramp_value by assumption. reflexivity.
Qed.
