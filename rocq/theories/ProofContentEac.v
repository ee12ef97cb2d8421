(** * Proofs about the pictures EAC R11 and RG11 decoding shows. *)
From Verif Require Import Base BaseLemmas BitLemmas ModelColor ModelEtc SpecImage SpecBits SpecBc SpecEtc SpecCut ProofCut SpecEncode ProofEncode ProofEncodeBc ProofEncodeSolid SpecTranspose ProofTranspose ProofTransposeEtc SpecContent ProofContent ProofEtcImage SpecContentEac.

Definition eac_code (sgn : bool) : list Z -> Z -> Z -> Z := if sgn then eac_code_red_s else eac_code_red.
Lemma word_head b o : is_byte (znth b o) -> is_byte (znth b (o + 1)) -> is_byte (znth b (o + 2)) -> is_byte (znth b (o + 3)) -> is_byte (znth b (o + 4)) -> is_byte (znth b (o + 5)) -> is_byte (znth b (o + 6)) -> is_byte (znth b (o + 7)) ->
  eac_base (etc_word b o) = znth b o /\ eac_multiplier (etc_word b o) = znth b (o + 1) / 16 /\ field (etc_word b o) 51 48 = znth b (o + 1) mod 16.
Proof.
  unfold is_byte, eac_base, eac_multiplier, field, etc_word. generalize (znth b o) (znth b (o + 1)) (znth b (o + 2)) (znth b (o + 3)) (znth b (o + 4)) (znth b (o + 5)) (znth b (o + 6)) (znth b (o + 7)). clear. intros a0 a1 a2 a3 a4 a5 a6 a7 **.
  change (63 - 56 + 1) with 8. change (55 - 52 + 1) with 4. change (51 - 48 + 1) with 4.
  set (r := a2 * 2 ^ 40 + a3 * 2 ^ 32 + a4 * 2 ^ 24 + a5 * 2 ^ 16 + a6 * 2 ^ 8 + a7). assert (0 <= r < 2 ^ 48) as R by (unfold r; lia).
  replace (a0 * 2 ^ 56 + a1 * 2 ^ 48 + a2 * 2 ^ 40 + a3 * 2 ^ 32 + a4 * 2 ^ 24 + a5 * 2 ^ 16 + a6 * 2 ^ 8 + a7) with (a0 * 2 ^ 56 + a1 * 2 ^ 48 + r) by (unfold r; ring). clearbody r.
  change (2 ^ 56) with 72057594037927936. change (2 ^ 48) with 281474976710656 in *. change (2 ^ 52) with 4503599627370496. change (2 ^ 8) with 256. change (2 ^ 4) with 16.
  split; [|split]; Z.to_euclidean_division_equations; lia.
Qed.
Lemma code_value (sgn : bool) b o t : is_byte (znth b o) -> is_byte (znth b (o + 1)) -> is_byte (znth b (o + 2)) -> is_byte (znth b (o + 3)) -> is_byte (znth b (o + 4)) -> is_byte (znth b (o + 5)) -> is_byte (znth b (o + 6)) -> is_byte (znth b (o + 7)) ->
  eac_code sgn b o t = eac_shown sgn (znth b o) (znth b (o + 1) / 16) (znth b (o + 1) mod 16) (eac_index (eac_swapped b o) t).
Proof.
  intros B0 B1 B2 B3 B4 B5 B6 B7. destruct (word_head b o B0 B1 B2 B3 B4 B5 B6 B7) as (E1 & E2 & E3).
  unfold eac_code, eac_shown. destruct sgn; unfold eac_code_red_s, eac_code_red, eac_value11, eac_modifier, eac_scale; cbv zeta; rewrite E1, E2, E3; reflexivity.
Qed.
Lemma low_tied w : 0 <= w -> (w / 8 ^ 0 mod 8 + 8 * (w / 8 ^ 1 mod 8) + 64 * (w / 8 ^ 2 mod 8) + 512 * (w / 8 ^ 3 mod 8) + 4096 * (w / 8 ^ 4 mod 8) + 32768 * (w / 8 ^ 5 mod 8)) mod 65536 = w mod 65536.
Proof. intros _. change (8 ^ 0) with 1. change (8 ^ 1) with 8. change (8 ^ 2) with 64. change (8 ^ 3) with 512. change (8 ^ 4) with 4096. change (8 ^ 5) with 32768. Z.to_euclidean_division_equations; lia. Qed.
Lemma eac_looks (sgn : bool) b o : bytes b -> 0 <= o -> o + 8 <= zlen b -> eac_pattern sgn (eac_code sgn b o).
Proof.
  intros B Ho L. assert (forall k, 0 <= k < 8 -> is_byte (znth b (o + k))) as K by (intros k Hk; apply bytes_znth; exact B).
  pose proof (K 0 ltac:(lia)) as K0. rewrite Z.add_0_r in K0. pose proof (K 1 ltac:(lia)) as K1. pose proof (K 2 ltac:(lia)) as K2. pose proof (K 3 ltac:(lia)) as K3. pose proof (K 4 ltac:(lia)) as K4. pose proof (K 5 ltac:(lia)) as K5. pose proof (K 6 ltac:(lia)) as K6. pose proof (K 7 ltac:(lia)) as K7.
  exists (znth b o), (znth b (o + 1) / 16), (znth b (o + 1) mod 16), (eac_index (eac_swapped b o)). unfold is_byte in *.
  split; [lia|]. split; [clear - K1; Z.to_euclidean_division_equations; lia|]. split; [apply Z.mod_pos_bound; lia|].
  split; [intros t _; unfold eac_index; apply field3; lia|]. split; [|intros t Ht; apply code_value; assumption].
  unfold tied. rewrite !eac_digit by lia. change (15 - across 15) with 0. change (15 - across 11) with 1. change (15 - across 7) with 2. change (15 - across 3) with 3. change (15 - across 14) with 4. change (15 - across 10) with 5.
  rewrite low_tied by (unfold eac_swapped; lia). unfold eac_swapped. generalize dependent (znth b o). generalize dependent (znth b (o + 1)). clear.
  intros a1 K1 a0 K0. generalize (znth b (o + 2)) (znth b (o + 3)) (znth b (o + 4)) (znth b (o + 5)) (znth b (o + 6)) (znth b (o + 7)). intros a2 a3 a4 a5 a6 a7.
  replace (a0 + a1 * 2 ^ 8 + a2 * 2 ^ 16 + a3 * 2 ^ 24 + a4 * 2 ^ 32 + a5 * 2 ^ 40 + a6 * 2 ^ 48 + a7 * 2 ^ 56) with (a0 + a1 * 256 + (a2 + a3 * 2 ^ 8 + a4 * 2 ^ 16 + a5 * 2 ^ 24 + a6 * 2 ^ 32 + a7 * 2 ^ 40) * 65536) by ring.
  rewrite Z.mod_add by lia. rewrite Z.mod_small by lia. Z.to_euclidean_division_equations; lia.
Qed.
Lemma low_index i t : choice_below 8 i -> 0 <= t < 16 -> eac_index (eac_low i) t = i t.
Proof.
  intros Hi Ht. rewrite eac_digit by exact Ht. pose proof (across_range t Ht) as Ha. unfold eac_low. rewrite number_same, (number_digit 8 _ ltac:(lia) (eac_digits i Hi)) by (change (zlen (tab 16 (fun d => i (across (15 - d))))) with 16; lia).
  rewrite znth_tab by lia. f_equal. replace (15 - (15 - across t)) with (across t) by ring. apply across_twice, Ht.
Qed.
Lemma swapped_to_bytes N : 0 <= N < 2 ^ 64 -> eac_swapped (to_bytes 8 N) 0 = N.
Proof.
  intros H. assert (le_bytes (to_bytes 8 N) = N) as Q by (apply le_to_bytes; exact H). revert Q. cbn [to_bytes].
  generalize (N mod 256), (N / 256 mod 256), (N / 256 / 256 mod 256), (N / 256 / 256 / 256 mod 256), (N / 256 / 256 / 256 / 256 mod 256), (N / 256 / 256 / 256 / 256 / 256 mod 256), (N / 256 / 256 / 256 / 256 / 256 / 256 mod 256), (N / 256 / 256 / 256 / 256 / 256 / 256 / 256 mod 256).
  intros a0 a1 a2 a3 a4 a5 a6 a7 <-. unfold eac_swapped, znth. cbn [le_bytes]. change (Z.to_nat 0) with 0%nat. change (Z.to_nat (0 + 1)) with 1%nat. change (Z.to_nat (0 + 2)) with 2%nat. change (Z.to_nat (0 + 3)) with 3%nat.
  change (Z.to_nat (0 + 4)) with 4%nat. change (Z.to_nat (0 + 5)) with 5%nat. change (Z.to_nat (0 + 6)) with 6%nat. change (Z.to_nat (0 + 7)) with 7%nat. cbn [nth]. lia.
Qed.
Lemma eac_stored (sgn : bool) a : eac_pattern sgn a -> exists b, bytes b /\ zlen b = 8 /\ forall t, 0 <= t < 16 -> eac_code sgn b 0 t = a t.
Proof.
  intros (base & mult & table & i & Hb & Hm & Ht & Hi & HT & E). pose proof (eac_low_range i Hi) as R. exists (to_bytes 8 (eac_low i)). pose proof (to_bytes_bytes 8 (eac_low i)) as B. split; [exact B|].
  assert (zlen (to_bytes 8 (eac_low i)) = 8) as Lb by (unfold zlen; rewrite to_bytes_len; reflexivity). split; [exact Lb|].
  assert (eac_swapped (to_bytes 8 (eac_low i)) 0 = eac_low i) as W.
  { apply swapped_to_bytes. lia. }
  assert (eac_low i mod 65536 = base + 256 * table + 4096 * mult) as N.
  { rewrite <- HT. rewrite <- (low_tied (eac_low i)) by lia. rewrite <- !(low_index i) by (assumption || lia). rewrite !eac_digit by lia. reflexivity. }
  assert (forall k, 0 <= k < 8 -> is_byte (znth (to_bytes 8 (eac_low i)) (0 + k))) as K by (intros k Hk; apply bytes_znth; exact B).
  intros t Htt. rewrite E by exact Htt. rewrite code_value by (apply (K 0) || apply K; lia). rewrite W, low_index by assumption.
  change (znth (to_bytes 8 (eac_low i)) 0) with (eac_low i mod 256). change (znth (to_bytes 8 (eac_low i)) (0 + 1)) with (eac_low i / 256 mod 256).
  f_equal; clear - N Hb Hm Ht; Z.to_euclidean_division_equations; lia.
Qed.
Lemma code_right (sgn : bool) b1 b2 t : zlen b1 = 8 -> eac_code sgn (b1 ++ b2) 8 t = eac_code sgn b2 0 t.
Proof.
  intros L. assert (forall k, 0 <= k -> znth (b1 ++ b2) (8 + k) = znth b2 (0 + k)) as A by (intros k Hk; rewrite znth_app2 by lia; f_equal; lia). pose proof (A 0 ltac:(lia)) as A0. rewrite !Z.add_0_r in A0.
  unfold eac_code. destruct sgn; unfold eac_code_red_s, eac_code_red, etc_word, eac_swapped; rewrite A0, !A by lia; reflexivity.
Qed.
Lemma code_left (sgn : bool) b1 b2 t : zlen b1 = 8 -> eac_code sgn (b1 ++ b2) 0 t = eac_code sgn b1 0 t.
Proof.
  intros L. unfold eac_code. destruct sgn; unfold eac_code_red_s, eac_code_red, etc_word, eac_swapped; rewrite !znth_app1 by lia; reflexivity.
Qed.
Definition r11_code (sgn : bool) : list Z -> Z -> Z := if sgn then eacr_s_code_texel else eacr_code_texel.
Definition rg11_code (sgn : bool) : list Z -> Z -> Z := if sgn then eacrg_s_code_texel else eacrg_code_texel.
Lemma r11_is (sgn : bool) b t : r11_code sgn b t = rgba (eac_code sgn b 0 t) 0 0 255. Proof. unfold r11_code, eac_code. destruct sgn; unfold eacr_s_code_texel, eacr_code_texel; reflexivity. Qed.
Lemma rg11_is (sgn : bool) b t : rg11_code sgn b t = rgba (eac_code sgn b 0 t) (eac_code sgn b 8 t) 0 255. Proof. unfold rg11_code, eac_code. destruct sgn; unfold eacrg_s_code_texel, eacrg_code_texel; reflexivity. Qed.
Definition dec_r11 (m : build) (sgn : bool) := if sgn then decode_eacr_signed m else decode_eacr m.
Definition dec_rg11 (m : build) (sgn : bool) := if sgn then decode_eacrg_signed m else decode_eacrg m.
Lemma r11_exactly m (sgn : bool) : composes_exactly 8 (r11_pattern sgn) (dec_r11 m sgn).
Proof.
  apply (exactly_composed 8 (r11_code sgn)); [destruct sgn; [apply eacr_signed_image|apply eacr_image]|lia| |].
  - intros b B L. exists (r11_code sgn b). split; [|reflexivity]. exists (eac_code sgn b 0). split; [apply eac_looks; [exact B|lia|lia]|intros; apply r11_is].
  - intros f (a & A & E). destruct (eac_stored sgn a A) as (b & B & L & T). exists b. split; [exact B|]. split; [exact L|]. intros t Ht. rewrite r11_is, T, E by exact Ht. reflexivity.
Qed.
Lemma rg11_exactly m (sgn : bool) : composes_exactly 16 (rg11_pattern sgn) (dec_rg11 m sgn).
Proof.
  apply (exactly_composed 16 (rg11_code sgn)); [destruct sgn; [apply eacrg_signed_image|apply eacrg_image]|lia| |].
  - intros b B L. exists (rg11_code sgn b). split; [|reflexivity]. exists (eac_code sgn b 0), (eac_code sgn b 8). split; [apply eac_looks; [exact B|lia|lia]|]. split; [apply eac_looks; [exact B|lia|lia]|intros; apply rg11_is].
  - intros f (a & g & A & G & E). destruct (eac_stored sgn a A) as (b1 & B1 & L1 & T1). destruct (eac_stored sgn g G) as (b2 & B2 & L2 & T2). exists (b1 ++ b2).
    split; [apply Forall_app; split; assumption|]. split; [rewrite zlen_app; lia|]. intros t Ht. rewrite rg11_is, code_right, code_left, T1, T2, E by assumption. reflexivity.
Qed.
