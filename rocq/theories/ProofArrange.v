(** * Proofs about rearranged pictures. *)
From Verif Require Import Base BaseLemmas ModelColor SpecImage SpecBc SpecCut ProofCrnGrid ProofCut ProofEncodeBc ProofChannels SpecTranspose SpecEncode ProofFlip ProofTranspose SpecArrange.

Definition from_block (raw : Z) (tex : list Z -> Z -> Z) (f : (Z -> Z) -> list Z -> list Z) : Prop :=
  forall s b, (forall t, 0 <= t < 16 -> 0 <= s t < 16) -> bytes b -> zlen b = raw ->
    bytes (f s b) /\ zlen (f s b) = raw /\ forall t, 0 <= t < 16 -> tex (f s b) t = tex b (s t).

Lemma arrange_image raw tex f dec : 0 < raw -> image_decoder 4 4 raw tex dec -> from_block raw tex f -> arranges raw f dec.
Proof.
  intros Hraw HD HF data w h image image' block texel w' h' other S E Hw' Hh' HA' HO H4 HB HT.
  pose proof (decodes_all _ _ _ _ _ HD) as HG.
  destruct (decodes_done 4 4 raw (fun _ => True) tex dec data w h image image' HG S (fun _ _ => I) E) as (R & RI & _ & PP & _).
  destruct S as (B & Hw & Hh & HI & HZ & HA).
  set (cols := blocks w 4) in *. set (rows := blocks h 4) in *. set (cols' := blocks w' 4) in *. set (rows' := blocks h' 4) in *.
  pose proof (blocks_nonneg w' 4 ltac:(lia) ltac:(lia)) as Nc. fold cols' in Nc. pose proof (blocks_nonneg h' 4 ltac:(lia) ltac:(lia)) as Nr. fold rows' in Nr.
  assert (0 <= cols' * rows') as Nn by (apply Z.mul_nonneg_nonneg; lia).
  assert (forall k, 0 <= k < cols' * rows' -> bytes (block_bytes raw (block k) data) /\ zlen (block_bytes raw (block k) data) = raw) as SB.
  { intros k Hk. pose proof (HB k Hk) as K. split; [unfold block_bytes; apply bytes_firstn, bytes_skipn, B|]. unfold block_bytes. rewrite zlen_firstn, zlen_skipn.
    assert (0 <= raw * block k) by (apply Z.mul_nonneg_nonneg; lia). pose proof (Z.mul_le_mono_nonneg_r (block k + 1) (cols * rows) raw ltac:(lia) ltac:(lia)). rewrite !Z2Nat.id by lia. lia. }
  set (new := fun k => f (texel k) (block_bytes raw (block k) data)).
  assert (forall k, 0 <= k < cols' * rows' -> bytes (new k) /\ zlen (new k) = raw /\ forall t, 0 <= t < 16 -> tex (new k) t = tex (block_bytes raw (block k) data) (texel k t)) as FF.
  { intros k Hk. destruct (SB k Hk) as [b1 b2]. apply HF; [intros t Ht; apply HT; assumption|exact b1|exact b2]. }
  assert (forall k, 0 <= k < cols' * rows' -> zlen (new k) = raw) as FL by (intros k Hk; exact (proj1 (proj2 (FF k Hk)))).
  set (data' := arranged raw f block texel (cols' * rows') data).
  assert (data' = flat_map new (zrange 0 (cols' * rows'))) as ED by reflexivity.
  assert (zlen data' = cols' * rows' * raw) as L.
  { rewrite ED. rewrite (zlen_flat_map raw); [ring|exact Nn|exact FL]. }
  assert (forall k, 0 <= k < cols' * rows' -> block_bytes raw k data' = new k) as BB.
  { intros k Hk. assert (0 <= raw * k) by (apply Z.mul_nonneg_nonneg; lia). pose proof (Z.mul_le_mono_nonneg_r (k + 1) (cols' * rows') raw ltac:(lia) ltac:(lia)).
    unfold block_bytes. apply znth_ext.
    - rewrite zlen_firstn, zlen_skipn, L, FL, !Z2Nat.id by lia. lia.
    - intros i Hi. rewrite zlen_firstn, zlen_skipn, L, !Z2Nat.id in Hi by lia. rewrite znth_firstn, znth_skipn, !Z2Nat.id by (rewrite ?Z2Nat.id; lia).
      rewrite ED. rewrite (znth_flat_map raw); [|exact Nn|exact Hraw|exact FL|lia].
      replace (raw * k + i) with (k * raw + i) by ring. rewrite Z.div_add_l, (Z.div_small i), Z.add_0_r by lia. rewrite (Z.add_comm (k * raw)), Z.mod_add, (Z.mod_small i) by lia. reflexivity. }
  destruct (HG data' w' h' other) as (_ & _ & D3).
  { assert (bytes data') as BF.
    { rewrite ED. apply Forall_forall. intros v Hv. apply in_flat_map in Hv. destruct Hv as (k & Hk & Hv). apply in_zrange in Hk.
      exact (proj1 (Forall_forall _ _) (proj1 (FF k Hk)) v Hv). }
    unfold sized. fold cols'. fold rows'. repeat split; try assumption; lia. }
  destruct D3 as (other' & E' & _ & PO & _); [fold cols'; fold rows'; lia|lia|intros k Hk; exact I|].
  exists other'. split; [exact E'|]. intros x y Hx Hy k t from_x from_y Fx Fy. rewrite PO by assumption. fold cols'.
  pose proof (blocks_above w' 4 x ltac:(lia) Hx) as X1. fold cols' in X1. pose proof (blocks_above h' 4 y ltac:(lia) Hy) as Y1. fold rows' in Y1.
  pose proof (below_product (y / 4) (x / 4) rows' cols' Y1 X1) as K. rewrite (Z.mul_comm rows') in K. fold k in K.
  assert (0 <= t < 16) as T by (unfold t; clear; Z.to_euclidean_division_equations; lia).
  fold k. fold t. rewrite BB by exact K. rewrite (proj2 (proj2 (FF k K))) by exact T.
  pose proof (HT k t K T) as TT. pose proof (HB k K) as KB.
  assert (0 < cols) as PC by (clear - KB Hw; pose proof (blocks_nonneg w 4 ltac:(lia) ltac:(lia)) as N; fold cols in N; destruct (Z.eq_dec cols 0) as [e|e]; [rewrite e in KB; lia|lia]).
  pose proof (Z.mod_pos_bound (block k) cols PC) as M. pose proof (Z.div_pos (block k) cols ltac:(lia) PC) as D.
  assert (0 <= from_x /\ 0 <= from_y) as [P0 P1] by (clear - M D TT; unfold from_x, from_y; Z.to_euclidean_division_equations; lia).
  rewrite PP by lia. fold cols.
  assert (from_x / 4 = block k mod cols /\ from_x mod 4 = texel k t mod 4 /\ from_y / 4 = block k / cols /\ from_y mod 4 = texel k t / 4) as (-> & -> & -> & ->).
  { unfold from_x, from_y. set (u := texel k t) in *. set (p := block k mod cols) in *. set (q := block k / cols) in *. clear - TT. Z.to_euclidean_division_equations; lia. }
  f_equal; [f_equal; rewrite (Z.mul_comm (block k / cols)); apply Z.div_mod; lia|].
  rewrite Z.mul_comm. apply Z.div_mod. lia.
Qed.

(** ** Blocks *)
Section Parts.
Context (s : Z -> Z) (HS : forall t, 0 <= t < 16 -> 0 <= s t < 16).
Lemma colour_from_eq b : bytes b -> colour_from s b = colour_bytes (le16 b 0, le16 b 2) (tab 16 (fun t => index2 b 4 (s t))).
Proof.
  intros H. unfold colour_from, colour_bytes. destruct (le16_split b 0 H) as [E0 E1]. destruct (le16_split b 2 H) as [E2 E3]. cbn [map fst snd]. change (0 + 1) with 1 in E1. change (2 + 1) with 3 in E3. rewrite <- E0, <- E1, <- E2, <- E3. reflexivity.
Qed.
Lemma colour_from_below b : below 4 (tab 16 (fun t => index2 b 4 (s t))).
Proof. apply below_tab; [lia|lia|]. intros. apply Z.mod_pos_bound. lia. Qed.
Lemma colour_from_ok b : bytes b -> bytes (colour_from s b) /\ zlen (colour_from s b) = 8.
Proof. intros H. rewrite colour_from_eq by exact H. apply colour_bytes_ok; [split; apply le16_u16, H|apply colour_from_below]. Qed.
Lemma colour_from_index b t : bytes b -> 0 <= t < 16 -> index2 (colour_from s b) 4 t = index2 b 4 (s t).
Proof. intros H Ht. rewrite colour_from_eq by exact H. rewrite colour_bytes_index by (apply colour_from_below || exact Ht). rewrite znth_tab by lia. reflexivity. Qed.
Lemma ramp_from_eq b : ramp_from s b = ramp_bytes (znth b 0, znth b 1) (tab 16 (fun t => index3 b 0 (s t))).
Proof. reflexivity. Qed.
Lemma ramp_from_below b : below 8 (tab 16 (fun t => index3 b 0 (s t))).
Proof. apply below_tab; [lia|lia|]. intros. apply Z.mod_pos_bound. lia. Qed.
Lemma ramp_from_ok b : bytes b -> bytes (ramp_from s b) /\ zlen (ramp_from s b) = 8.
Proof. intros H. rewrite ramp_from_eq. apply ramp_bytes_ok. split; apply bytes_znth, H. Qed.
Lemma ramp_from_value b t : 0 <= t < 16 -> interp8 (ramp_from s b) 0 t = interp8 b 0 (s t).
Proof. intros Ht. rewrite ramp_from_eq, ramp_bytes_interp by (apply ramp_from_below || exact Ht). rewrite znth_tab by lia. reflexivity. Qed.
Lemma alpha_from_below b : below 16 (tab 16 (fun t => znth b (s t / 2) / 16 ^ (s t mod 2) mod 16)).
Proof. apply below_tab; [lia|lia|]. intros. apply Z.mod_pos_bound. lia. Qed.
Lemma alpha_from_ok b : bytes (alpha_from s b) /\ zlen (alpha_from s b) = 8.
Proof. exact (nibble_bytes_ok _ (alpha_from_below b)). Qed.
Lemma alpha_from_value b t : 0 <= t < 16 -> bc2_alpha (alpha_from s b) t = bc2_alpha b (s t).
Proof. intros Ht. etransitivity; [exact (nibble_bytes_alpha _ t (alpha_from_below b) Ht)|]. rewrite znth_tab by lia. reflexivity. Qed.
Lemma bc1_from b t : bytes b -> 0 <= t < 16 -> bc1_r (colour_from s b) 0 t = bc1_r b 0 (s t) /\ bc1_g (colour_from s b) 0 t = bc1_g b 0 (s t) /\ bc1_b (colour_from s b) 0 t = bc1_b b 0 (s t).
Proof. intros H Ht. unfold bc1_r, bc1_g, bc1_b. change (0 + 4) with 4. rewrite colour_from_index by assumption. auto. Qed.
Lemma atc_from dark b t a : bytes b -> 0 <= t < 16 -> atc_rgb dark (colour_from s b) 0 t a = atc_rgb dark b 0 (s t) a.
Proof. intros H Ht. unfold atc_rgb. change (0 + 4) with 4. rewrite colour_from_index by assumption. reflexivity. Qed.
End Parts.

Lemma from_bc1 : from_block 8 bc1_texel colour_from.
Proof. intros s b HS H L. destruct (colour_from_ok s b H) as [F1 F2]. split; [exact F1|]. split; [exact F2|]. intros t Ht. unfold bc1_texel. destruct (bc1_from s b t H Ht) as (-> & -> & ->). reflexivity. Qed.
Lemma from_bc1a : from_block 8 bc1a_texel colour_from.
Proof.
  intros s b HS H L. destruct (colour_from_ok s b H) as [F1 F2]. split; [exact F1|]. split; [exact F2|]. intros t Ht. unfold bc1a_texel. destruct (bc1_from s b t H Ht) as (-> & -> & ->).
  rewrite colour_from_index by assumption. reflexivity.
Qed.
Lemma from_atc dark : from_block 8 (atc_rgb4_texel dark) colour_from.
Proof. intros s b HS H L. destruct (colour_from_ok s b H) as [F1 F2]. split; [exact F1|]. split; [exact F2|]. intros t Ht. apply atc_from; assumption. Qed.
Lemma from_bc4 : from_block 8 bc4_texel ramp_from.
Proof. intros s b HS H L. destruct (ramp_from_ok s b H) as [F1 F2]. split; [exact F1|]. split; [exact F2|]. intros t Ht. unfold bc4_texel. rewrite ramp_from_value by assumption. reflexivity. Qed.
Lemma from_halves f g tex : (forall s c, bytes c -> bytes (f s c) /\ zlen (f s c) = 8) -> (forall s c, bytes c -> bytes (g s c) /\ zlen (g s c) = 8) ->
  (forall s c d t, bytes c -> bytes d -> zlen c = 8 -> zlen d = 8 -> 0 <= t < 16 -> 0 <= s t < 16 -> tex (f s c ++ g s d) t = tex (c ++ d) (s t)) -> from_block 16 tex (halves_from f g).
Proof.
  intros F G T s b HS H L. destruct (bytes_split b H L) as (c & d & E & Bc & Bd & Lc & Ld & E1 & E2). unfold halves_from. rewrite E1, E2.
  destruct (F s c Bc) as [F1 F2]. destruct (G s d Bd) as [G1 G2]. split; [apply Forall_app; split; assumption|]. split; [rewrite zlen_app; lia|].
  intros t Ht. rewrite E. apply T; try assumption. apply HS, Ht.
Qed.
Lemma from_bc2 : from_block 16 bc2_texel (halves_from alpha_from colour_from).
Proof.
  apply from_halves; [intros; apply alpha_from_ok|intros; apply colour_from_ok; assumption|]. intros s c d t Bc Bd Lc Ld Ht Ho. unfold bc2_texel.
  pose proof (proj2 (alpha_from_ok s c)) as Lf. destruct (bc1_right _ (colour_from s d) t Lf ltac:(lia)) as (-> & -> & ->). destruct (bc1_right c d (s t) Lc ltac:(lia)) as (-> & -> & ->).
  destruct (bc1_from s d t Bd Ht) as (-> & -> & ->). rewrite !bc2_alpha_left by assumption. rewrite alpha_from_value by exact Ht. reflexivity.
Qed.
Lemma from_bc3 : from_block 16 bc3_texel (halves_from ramp_from colour_from).
Proof.
  apply from_halves; [intros; apply ramp_from_ok; assumption|intros; apply colour_from_ok; assumption|]. intros s c d t Bc Bd Lc Ld Ht Ho. unfold bc3_texel.
  pose proof (proj2 (ramp_from_ok s c Bc)) as Lf. destruct (bc1_right _ (colour_from s d) t Lf ltac:(lia)) as (-> & -> & ->). destruct (bc1_right c d (s t) Lc ltac:(lia)) as (-> & -> & ->).
  destruct (bc1_from s d t Bd Ht) as (-> & -> & ->). rewrite !interp8_left by assumption. rewrite ramp_from_value by assumption. reflexivity.
Qed.
Lemma from_atca dark : from_block 16 (atc_rgba8_texel dark) (halves_from ramp_from colour_from).
Proof.
  apply from_halves; [intros; apply ramp_from_ok; assumption|intros; apply colour_from_ok; assumption|]. intros s c d t Bc Bd Lc Ld Ht Ho. unfold atc_rgba8_texel.
  pose proof (proj2 (ramp_from_ok s c Bc)) as Lf. rewrite !atc_right, !interp8_left by (assumption || lia). rewrite atc_from, ramp_from_value by assumption. reflexivity.
Qed.
Lemma from_bc5 : from_block 16 bc5_texel (halves_from ramp_from ramp_from).
Proof.
  apply from_halves; [intros; apply ramp_from_ok; assumption|intros; apply ramp_from_ok; assumption|]. intros s c d t Bc Bd Lc Ld Ht Ho. unfold bc5_texel.
  pose proof (proj2 (ramp_from_ok s c Bc)) as Lf. rewrite !interp8_left, !interp8_right by assumption. rewrite !ramp_from_value by assumption. reflexivity.
Qed.

(** ** Mirror images and turned pictures *)
Lemma blocks_times k : blocks (4 * k) 4 = k.
Proof. unfold blocks. Z.to_euclidean_division_equations; lia. Qed.
Lemma arranges_mirrors raw f dec : 0 < raw -> arranges raw f dec -> mirrors raw f dec.
Proof.
  intros Hraw HA data cols h image image' other w S HC E HO H4. pose proof S as (B & Hw & Hh & HI & HZ & HP).
  assert (blocks w 4 = cols) as EW by apply blocks_times. rewrite EW in *. set (rows := blocks h 4) in *.
  pose proof (blocks_nonneg h 4 ltac:(lia) ltac:(lia)) as Nr. fold rows in Nr.
  assert (forall k, 0 <= k < cols * rows -> 0 < cols /\ 0 <= k / cols < rows /\ 0 <= k mod cols < cols) as KK.
  { intros k Hk. assert (0 < cols) by (destruct (Z.eq_dec cols 0) as [e|e]; [rewrite e in Hk; lia|lia]). split; [assumption|]. split; [|apply Z.mod_pos_bound; lia]. split; [apply Z.div_pos; lia|apply Z.div_lt_upper_bound; lia]. }
  destruct (HA data w h image image' (fun k => k / cols * cols + (cols - 1 - k mod cols)) (fun _ => beside) w h other S E Hw Hh) as (other' & E' & P).
  { rewrite EW. fold rows. lia. } { exact HO. } { exact H4. }
  { rewrite EW. fold rows. intros k Hk. destruct (KK k Hk) as (K0 & K1 & K2). rewrite (Z.mul_comm cols rows). apply below_product; lia. }
  { intros k t _ Ht. unfold beside. clear - Ht. Z.to_euclidean_division_equations; lia. }
  rewrite EW in E', P. fold rows in E'. exists other'. split; [exact E'|]. intros x y Hx Hy. specialize (P x y Hx Hy). cbv zeta in P.
  assert (0 <= x / 4 < cols) as X1 by (rewrite <- EW; apply blocks_above; lia).
  rewrite !Z.div_add_l in P by lia. rewrite (Z.div_small (x / 4) cols X1) in P. rewrite (Z.add_comm (y / 4 * cols) (x / 4)), Z.mod_add, (Z.mod_small (x / 4) cols X1) in P by lia.
  rewrite Z.add_0_r in P. rewrite (Z.div_small (cols - 1 - x / 4) cols) in P by lia.
  replace ((y / 4 * cols + (cols - 1 - x / 4)) mod cols) with (cols - 1 - x / 4) in P by (rewrite (Z.add_comm (y / 4 * cols)), Z.mod_add, Z.mod_small by lia; reflexivity).
  rewrite Z.add_0_r in P.
  assert ((cols - 1 - x / 4) * 4 + beside (y mod 4 * 4 + x mod 4) mod 4 = w - 1 - x) as Fx by (unfold beside, w; clear; Z.to_euclidean_division_equations; lia).
  assert (y / 4 * 4 + beside (y mod 4 * 4 + x mod 4) / 4 = y) as Fy by (unfold beside; clear; Z.to_euclidean_division_equations; lia).
  rewrite Fx, Fy in P. apply P; lia.
Qed.
Lemma arranges_half_turns raw f dec : 0 < raw -> arranges raw f dec -> half_turns raw f dec.
Proof.
  intros Hraw HA data cols rows image image' other w h S HC HR E HO H4. pose proof S as (B & Hw & Hh & HI & HZ & HP).
  assert (blocks w 4 = cols) as EW by apply blocks_times. assert (blocks h 4 = rows) as EH by apply blocks_times. rewrite EW, EH in *.
  destruct (HA data w h image image' (fun k => cols * rows - 1 - k) (fun _ t => 15 - t) w h other S E Hw Hh) as (other' & E' & P).
  { rewrite EW, EH. lia. } { exact HO. } { exact H4. } { rewrite EW, EH. intros k Hk. lia. } { intros k t _ Ht. lia. }
  rewrite EW, EH in *. exists other'. split; [exact E'|]. intros x y Hx Hy. specialize (P x y Hx Hy). cbv zeta in P.
  assert (0 <= x / 4 < cols) as X1 by (rewrite <- EW; apply blocks_above; lia). assert (0 <= y / 4 < rows) as Y1 by (rewrite <- EH; apply blocks_above; lia).
  replace (cols * rows - 1 - (y / 4 * cols + x / 4)) with ((rows - 1 - y / 4) * cols + (cols - 1 - x / 4)) in P by ring.
  rewrite Z.div_add_l, (Z.div_small (cols - 1 - x / 4) cols) in P by lia. rewrite (Z.add_comm ((rows - 1 - y / 4) * cols)), Z.mod_add, (Z.mod_small (cols - 1 - x / 4)) in P by lia.
  assert ((cols - 1 - x / 4) * 4 + (15 - (y mod 4 * 4 + x mod 4)) mod 4 = w - 1 - x) as Fx by (unfold w; clear; Z.to_euclidean_division_equations; lia).
  assert ((rows - 1 - y / 4 + 0) * 4 + (15 - (y mod 4 * 4 + x mod 4)) / 4 = h - 1 - y) as Fy by (unfold h; clear; Z.to_euclidean_division_equations; lia).
  rewrite Fx, Fy in P. apply P; lia.
Qed.
Lemma arranges_right_turns raw f dec : 0 < raw -> arranges raw f dec -> right_turns raw f dec.
Proof.
  intros Hraw HA data w rows image image' other h S HR E HO H4. pose proof S as (B & Hw & Hh & HI & HZ & HP).
  assert (blocks h 4 = rows) as EH by apply blocks_times. rewrite EH in *. set (cols := blocks w 4) in *.
  pose proof (blocks_nonneg w 4 ltac:(lia) ltac:(lia)) as Nc. fold cols in Nc.
  assert (forall k, 0 <= k < rows * cols -> 0 < rows /\ 0 <= k / rows < cols /\ 0 <= k mod rows < rows) as KK.
  { intros k Hk. assert (0 < rows) by (destruct (Z.eq_dec rows 0) as [e|e]; [rewrite e in Hk; lia|lia]). split; [assumption|]. split; [|apply Z.mod_pos_bound; lia]. split; [apply Z.div_pos; lia|apply Z.div_lt_upper_bound; lia]. }
  destruct (HA data w h image image' (fun k => (rows - 1 - k mod rows) * cols + k / rows) (fun _ t => (3 - t mod 4) * 4 + t / 4) h w other S E Hh Hw) as (other' & E' & P).
  { rewrite EH. fold cols. rewrite (Z.mul_comm rows cols). exact HZ. } { rewrite Z.mul_comm. exact HO. } { exact H4. }
  { rewrite EH. fold cols. intros k Hk. destruct (KK k Hk) as (K0 & K1 & K2). rewrite (Z.mul_comm cols rows). apply below_product; lia. }
  { intros k t _ Ht. clear - Ht. Z.to_euclidean_division_equations; lia. }
  rewrite EH in *. fold cols in E', P. exists other'. split; [exact E'|]. intros x y Hx Hy. specialize (P x y Hx Hy). cbv zeta in P.
  assert (0 <= x / 4 < rows) as X1 by (rewrite <- EH; apply blocks_above; lia). pose proof (blocks_above w 4 y ltac:(lia) Hy) as Y1. fold cols in Y1.
  rewrite (Z.div_add_l (y / 4) rows), (Z.div_small (x / 4) rows X1), (Z.add_comm (y / 4 * rows)), Z.mod_add, (Z.mod_small (x / 4) rows X1), Z.add_0_r in P by lia.
  rewrite (Z.div_add_l (rows - 1 - x / 4) cols), (Z.div_small (y / 4) cols Y1) in P by lia. rewrite (Z.add_comm ((rows - 1 - x / 4) * cols)), Z.mod_add, (Z.mod_small (y / 4) cols Y1) in P by lia.
  assert (y / 4 * 4 + ((3 - (y mod 4 * 4 + x mod 4) mod 4) * 4 + (y mod 4 * 4 + x mod 4) / 4) mod 4 = y) as Fx by (clear; Z.to_euclidean_division_equations; lia).
  assert ((rows - 1 - x / 4 + 0) * 4 + ((3 - (y mod 4 * 4 + x mod 4) mod 4) * 4 + (y mod 4 * 4 + x mod 4) / 4) / 4 = h - 1 - x) as Fy by (unfold h; clear; Z.to_euclidean_division_equations; lia).
  rewrite Fx, Fy in P. apply P; lia.
Qed.
Lemma arranges_left_turns raw f dec : 0 < raw -> arranges raw f dec -> left_turns raw f dec.
Proof.
  intros Hraw HA data cols h image image' other w S HC E HO H4. pose proof S as (B & Hw & Hh & HI & HZ & HP).
  assert (blocks w 4 = cols) as EW by apply blocks_times. rewrite EW in *. set (rows := blocks h 4) in *.
  pose proof (blocks_nonneg h 4 ltac:(lia) ltac:(lia)) as Nr. fold rows in Nr.
  assert (forall k, 0 <= k < rows * cols -> 0 < rows /\ 0 <= k / rows < cols /\ 0 <= k mod rows < rows) as KK.
  { intros k Hk. assert (0 < rows) by (destruct (Z.eq_dec rows 0) as [e|e]; [rewrite e in Hk; lia|lia]). split; [assumption|]. split; [|apply Z.mod_pos_bound; lia]. split; [apply Z.div_pos; lia|apply Z.div_lt_upper_bound; lia]. }
  destruct (HA data w h image image' (fun k => k mod rows * cols + (cols - 1 - k / rows)) (fun _ t => t mod 4 * 4 + (3 - t / 4)) h w other S E Hh Hw) as (other' & E' & P).
  { rewrite EW. fold rows. rewrite (Z.mul_comm rows cols). exact HZ. } { rewrite Z.mul_comm. exact HO. } { exact H4. }
  { rewrite EW. fold rows. intros k Hk. destruct (KK k Hk) as (K0 & K1 & K2). rewrite (Z.mul_comm cols rows). apply below_product; lia. }
  { intros k t _ Ht. clear - Ht. Z.to_euclidean_division_equations; lia. }
  rewrite EW in *. fold rows in E', P. exists other'. split; [exact E'|]. intros x y Hx Hy. specialize (P x y Hx Hy). cbv zeta in P.
  assert (0 <= y / 4 < cols) as Y1 by (rewrite <- EW; apply blocks_above; lia). pose proof (blocks_above h 4 x ltac:(lia) Hx) as X1. fold rows in X1.
  rewrite (Z.div_add_l (y / 4) rows), (Z.div_small (x / 4) rows X1), (Z.add_comm (y / 4 * rows)), Z.mod_add, (Z.mod_small (x / 4) rows X1), Z.add_0_r in P by lia.
  rewrite (Z.div_add_l (x / 4) cols), (Z.div_small (cols - 1 - y / 4) cols) in P by lia. rewrite (Z.add_comm (x / 4 * cols)), Z.mod_add, (Z.mod_small (cols - 1 - y / 4) cols) in P by lia.
  assert ((cols - 1 - y / 4) * 4 + ((y mod 4 * 4 + x mod 4) mod 4 * 4 + (3 - (y mod 4 * 4 + x mod 4) / 4)) mod 4 = w - 1 - y) as Fx by (unfold w; clear; Z.to_euclidean_division_equations; lia).
  assert ((x / 4 + 0) * 4 + ((y mod 4 * 4 + x mod 4) mod 4 * 4 + (3 - (y mod 4 * 4 + x mod 4) / 4)) / 4 = x) as Fy by (clear; Z.to_euclidean_division_equations; lia).
  rewrite Fx, Fy in P. apply P; lia.
Qed.
Lemma turned raw f dec : 0 < raw -> arranges raw f dec -> mirrors raw f dec /\ half_turns raw f dec /\ right_turns raw f dec /\ left_turns raw f dec.
Proof.
  intros H A. split; [apply arranges_mirrors; assumption|]. split; [apply arranges_half_turns; assumption|]. split; [apply arranges_right_turns; assumption|apply arranges_left_turns; assumption].
Qed.
