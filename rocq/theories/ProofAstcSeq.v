(** * ASTC bounded integer sequences *)
From Verif Require Import Base BaseLemmas BitLemmas FieldLemmas SpecBits ModelBits ProofDecoder ProofBits ProofPvrInfo ModelAstc SpecAstc.

Lemma pow_pos n : 0 <= n -> 0 < 2 ^ n.
Proof. intros. apply Z.pow_pos_nonneg; lia. Qed.

Ltac pw := first [apply Z.pow_nonzero; lia | apply Z.pow_pos_nonneg; lia | lia].

Lemma bfield_range x p n : 0 <= n -> 0 <= bfield x p n < 2 ^ n.
Proof. intros. apply Z.mod_pos_bound, pow_pos; auto. Qed.

Lemma bfield_bfield x p n q r : 0 <= p -> 0 <= q <= n -> 0 <= r ->
  bfield (bfield x p n) q r = bfield x (p + q) (Z.min r (n - q)).
Proof.
  intros Hp Hq Hr. unfold bfield. rewrite div_pow_split by lia. set (y := x / 2 ^ p).
  replace n with (q + (n - q)) at 1 by lia. rewrite Z.pow_add_r by lia.
  rewrite Z.rem_mul_r by pw.
  rewrite Z.mul_comm, Z.div_add by pw.
  rewrite Z.div_small by (apply Z.mod_pos_bound, pow_pos; lia). rewrite Z.add_0_l.
  destruct (Z.min_spec r (n - q)) as [[L ->]|[L ->]].
  - replace (n - q) with (r + (n - q - r)) by lia. rewrite Z.pow_add_r by lia.
    rewrite Z.rem_mul_r by pw.
    rewrite Z.mul_comm, Z.mod_add by pw.
    apply Z.mod_mod. pw.
  - apply Z.mod_small. pose proof (Z.mod_pos_bound (y / 2 ^ q) (2 ^ (n - q)) (pow_pos (n - q) ltac:(lia))).
    pose proof (Z.pow_le_mono_r 2 (n - q) r ltac:(lia) ltac:(lia)). lia.
Qed.

(** ** Bit reversal *)
Lemma rev_range n x : 0 <= rev_bits n x < 2 ^ Z.of_nat n.
Proof.
  revert x; induction n; intros x; [cbn; lia|]. cbn [rev_bits]. specialize (IHn (x / 2)).
  replace (Z.of_nat (S n)) with (1 + Z.of_nat n) by lia. rewrite Z.pow_add_r by lia.
  pose proof (Z.mod_pos_bound x 2 ltac:(lia)).
  assert (x mod 2 = 0 \/ x mod 2 = 1) as [-> | ->] by lia; lia.
Qed.

Lemma rev_0 n : rev_bits n 0 = 0.
Proof. induction n; cbn [rev_bits]; auto. Qed.

Lemma rev_split a b x : rev_bits (a + b) x =
  rev_bits a x * 2 ^ Z.of_nat b + rev_bits b (x / 2 ^ Z.of_nat a).
Proof.
  revert x; induction a; intros x.
  - cbn [rev_bits Nat.add]. rewrite Z.pow_0_r, Z.div_1_r. lia.
  - cbn [rev_bits Nat.add]. rewrite IHa.
    replace (Z.of_nat (a + b)) with (Z.of_nat a + Z.of_nat b) by lia.
    replace (Z.of_nat (S a)) with (1 + Z.of_nat a) by lia.
    rewrite (div_pow_split x 1) by lia. change (2 ^ 1) with 2. rewrite Z.pow_add_r by lia. lia.
Qed.

Lemma rev_mod n x k : Z.of_nat n <= k -> rev_bits n (x mod 2 ^ k) = rev_bits n x.
Proof.
  revert x k; induction n; intros x k H; [reflexivity|]. cbn [rev_bits].
  assert (x mod 2 ^ k mod 2 = x mod 2 /\ x mod 2 ^ k / 2 = x / 2 mod 2 ^ (k - 1)) as [-> ->].
  { replace k with (1 + (k - 1)) at 1 2 by lia. rewrite Z.pow_add_r by lia. change (2 ^ 1) with 2.
    rewrite Z.rem_mul_r by pw.
    rewrite (Z.mul_comm 2). rewrite Z.mod_add, Z.div_add by lia.
    rewrite Z.mod_mod by lia. rewrite (Z.div_small (x mod 2)) by (apply Z.mod_pos_bound; lia). lia. }
  rewrite IHn by lia. reflexivity.
Qed.

(** The reverse of a field is a field of the reverse. *)
Lemma rev_field N x q n : 0 <= q -> 0 <= n -> q + n <= Z.of_nat N ->
  rev_bits (Z.to_nat n) (bfield x (Z.of_nat N - q - n) n) = bfield (rev_bits N x) q n.
Proof.
  intros Hq Hn HN. unfold bfield at 1. rewrite rev_mod by lia.
  replace N with (Z.to_nat (Z.of_nat N - q - n) + (Z.to_nat n + Z.to_nat q))%nat at 2 by lia.
  rewrite rev_split, rev_split.
  rewrite !Z2Nat.id by lia. replace (Z.of_nat (Z.to_nat n + Z.to_nat q)) with (n + q) by lia.
  set (A := rev_bits _ x). set (y := x / 2 ^ _). pose proof (rev_range (Z.to_nat n) y) as R1.
  rewrite Z2Nat.id in R1 by lia. set (B := rev_bits (Z.to_nat n) y) in *.
  pose proof (rev_range (Z.to_nat q) (y / 2 ^ n)) as R2. rewrite Z2Nat.id in R2 by lia.
  set (C := rev_bits (Z.to_nat q) _) in *. unfold bfield.
  rewrite Z.pow_add_r by lia.
  replace (A * (2 ^ n * 2 ^ q) + (B * 2 ^ q + C)) with (C + (A * 2 ^ n + B) * 2 ^ q) by ring.
  rewrite Z.div_add by pw. rewrite (Z.div_small C) by lia.
  rewrite Z.add_0_l, Z.add_comm, Z.mod_add by pw.
  symmetry; apply Z.mod_small; lia.
Qed.

Lemma table_sweep : all_below 256 (fun c => znth BIT_REVERSE_TABLE c =? rev_bits 8 c) = true.
Proof. vm_cast_no_check (eq_refl true). Qed.
Lemma table_rev c : 0 <= c < 256 -> idx BIT_REVERSE_TABLE c = Ok (rev_bits 8 c).
Proof.
  intros H. rewrite idx_ok by (change (zlen BIT_REVERSE_TABLE) with 256; auto). f_equal.
  apply Z.eqb_eq. exact (all_below_spec _ _ table_sweep c H).
Qed.

Lemma bit_reverse_u8_ok m c bits : 0 <= bits <= 8 -> 0 <= c < 2 ^ bits ->
  bit_reverse_u8 m c bits = Ok (rev_bits (Z.to_nat bits) c).
Proof.
  intros Hb Hc. pose proof (Z.pow_le_mono_r 2 bits 8 ltac:(lia) ltac:(lia)). change (2 ^ 8) with 256 in *.
  unfold bit_reverse_u8. rewrite table_rev by lia. cbn [bind]. rewrite ua_ok by lia. cbn [bind].
  destruct (Z.ltb_spec 7 (8 - bits)).
  - replace bits with 0 by lia. reflexivity.
  - rewrite shr_div by lia. f_equal.
    replace 8%nat with (Z.to_nat bits + Z.to_nat (8 - bits))%nat by lia.
    rewrite rev_split, !Z2Nat.id by lia. rewrite Z.div_small with (a := c) by lia. rewrite rev_0, Z.add_0_r.
    apply Z.div_mul. pw.
Qed.

Lemma bit_reverse_u64_ok m d bits : 1 <= bits <= 64 -> 0 <= d < 2 ^ bits ->
  bit_reverse_u64 m d bits = Ok (rev_bits (Z.to_nat bits) d).
Proof.
  intros Hb Hd. unfold bit_reverse_u64.
  change 0xff with (2 ^ 8 - 1). rewrite !land_mask, !shr_div by lia.
  rewrite !table_rev by (change 256 with (2 ^ 8); apply Z.mod_pos_bound; lia). cbn [bind].
  rewrite !rev_mod by lia. rewrite ua_ok by lia. cbn [bind]. rewrite ushr_ok by lia. f_equal.
  set (R := Z.lor _ _). assert (R = rev_bits 64 d) as ->.
  { unfold R. change 64%nat with (8 + (8 + (8 + (8 + (8 + (8 + (8 + 8)))))))%nat.
    rewrite !rev_split. change (Z.of_nat 8) with 8. rewrite <- !div_pow_split by lia.
    cbn [Z.add Pos.add Pos.succ].
    rewrite !shl_mul by lia.
    change (Z.of_nat (8 + (8 + (8 + (8 + (8 + (8 + 8))))))) with 56.
    change (Z.of_nat (8 + (8 + (8 + (8 + (8 + 8)))))) with 48.
    change (Z.of_nat (8 + (8 + (8 + (8 + 8))))) with 40.
    change (Z.of_nat (8 + (8 + (8 + 8)))) with 32.
    change (Z.of_nat (8 + (8 + 8))) with 24. change (Z.of_nat (8 + 8)) with 16.
    change (8 + 8) with 16. change (16 + 8) with 24. change (24 + 8) with 32. change (32 + 8) with 40. change (40 + 8) with 48. change (48 + 8) with 56.
    pose proof (rev_range 8 d). pose proof (rev_range 8 (d / 2 ^ 8)).
    pose proof (rev_range 8 (d / 2 ^ 16)). pose proof (rev_range 8 (d / 2 ^ 24)).
    pose proof (rev_range 8 (d / 2 ^ 32)). pose proof (rev_range 8 (d / 2 ^ 40)).
    pose proof (rev_range 8 (d / 2 ^ 48)). pose proof (rev_range 8 (d / 2 ^ 56)).
    change (2 ^ Z.of_nat 8) with 256 in *.
    set (r0 := rev_bits 8 d) in *. set (r1 := rev_bits 8 (d / 2 ^ 8)) in *. set (r2 := rev_bits 8 (d / 2 ^ 16)) in *.
    set (r3 := rev_bits 8 (d / 2 ^ 24)) in *. set (r4 := rev_bits 8 (d / 2 ^ 32)) in *. set (r5 := rev_bits 8 (d / 2 ^ 40)) in *.
    set (r6 := rev_bits 8 (d / 2 ^ 48)) in *. set (r7 := rev_bits 8 (d / 2 ^ 56)) in *. clearbody r0 r1 r2 r3 r4 r5 r6 r7.
    rewrite (lor_add' r0 (r1 * 2 ^ 48) _ 56) by lia.
    rewrite (lor_add' (r0 * 2 ^ 8 + r1) (r2 * 2 ^ 40) _ 48) by lia.
    rewrite (lor_add' ((r0 * 2 ^ 8 + r1) * 2 ^ 8 + r2) (r3 * 2 ^ 32) _ 40) by lia.
    rewrite (lor_add' (((r0 * 2 ^ 8 + r1) * 2 ^ 8 + r2) * 2 ^ 8 + r3) (r4 * 2 ^ 24) _ 32) by lia.
    rewrite (lor_add' ((((r0 * 2 ^ 8 + r1) * 2 ^ 8 + r2) * 2 ^ 8 + r3) * 2 ^ 8 + r4) (r5 * 2 ^ 16) _ 24) by lia.
    rewrite (lor_add' (((((r0 * 2 ^ 8 + r1) * 2 ^ 8 + r2) * 2 ^ 8 + r3) * 2 ^ 8 + r4) * 2 ^ 8 + r5) (r6 * 2 ^ 8) _ 16) by lia.
    rewrite (lor_add' ((((((r0 * 2 ^ 8 + r1) * 2 ^ 8 + r2) * 2 ^ 8 + r3) * 2 ^ 8 + r4) * 2 ^ 8 + r5) * 2 ^ 8 + r6) r7 _ 8) by lia.
    lia. }
  replace 64%nat with (Z.to_nat bits + Z.to_nat (64 - bits))%nat by lia.
  rewrite rev_split, !Z2Nat.id by lia. rewrite Z.div_small with (a := d) by lia. rewrite rev_0, Z.add_0_r.
  apply Z.div_mul. pw.
Qed.

(** ** Reading the block *)
Lemma le_firstn l k : bytes l -> 0 <= k -> le_bytes (firstn (Z.to_nat k) l) = le_bytes l mod 2 ^ (8 * k).
Proof.
  intros Hb Hk. rewrite <- (firstn_skipn (Z.to_nat k) l) at 2. rewrite le_bytes_app.
  assert (bytes (firstn (Z.to_nat k) l)) as B by (apply bytes_firstn; auto).
  pose proof (le_bytes_bound _ B) as R. rewrite zlen_firstn in R |- *.
  destruct (Z.le_gt_cases (zlen l) k) as [L|L].
  - rewrite (skipn_all2 l) by (unfold zlen in L; lia). cbn [le_bytes]. rewrite Z.mul_0_r, Z.add_0_r.
    symmetry. apply Z.mod_small. pose proof (zlen_nonneg l).
    pose proof (Z.pow_le_mono_r 2 (8 * Z.min (Z.of_nat (Z.to_nat k)) (zlen l)) (8 * k) ltac:(lia) ltac:(lia)). lia.
  - replace (Z.min (Z.of_nat (Z.to_nat k)) (zlen l)) with k in * by lia.
    rewrite Z.mul_comm, Z.mod_add by pw. symmetry. apply Z.mod_small. lia.
Qed.

Lemma word_bits buf p n : bytes buf -> 0 <= p -> 0 <= n -> p + n <= 128 ->
  bits buf p n = bfield (astc_word buf) p n.
Proof.
  intros Hb Hp Hn H. unfold bits, bfield, astc_word. change 16%nat with (Z.to_nat 16).
  rewrite le_firstn by (auto; lia). rewrite mod_div_mod by lia. auto.
Qed.

Lemma word64_firstn buf a : 16 <= zlen buf -> 0 <= a <= 8 -> word64 buf a = word64 (firstn 16 buf) a.
Proof.
  intros Hl Ha. unfold word64. rewrite !slice_ok by (rewrite ?zlen_firstn; lia). cbn [bind].
  do 2 f_equal. rewrite !firstn_skipn_comm, firstn_firstn. do 2 f_equal. lia.
Qed.

Lemma getbits64_word m buf p n : bytes buf -> 16 <= zlen buf -> 0 <= p < 128 -> 0 <= n <= 64 -> p + n <= 128 ->
  getbits64 m buf p n = Ok (bfield (astc_word buf) p n).
Proof.
  intros Hb Hl Hp Hn H. transitivity (getbits64 m (firstn 16 buf) p n).
  - unfold getbits64. rewrite !(word64_firstn buf) by lia. reflexivity.
  - rewrite getbits64_ok; [reflexivity|apply bytes_firstn; auto|rewrite zlen_firstn; lia|lia|lia].
Qed.

Lemma getbits_word m buf p n : bytes buf -> 16 <= zlen buf -> 0 <= p -> 0 <= n <= 25 -> p + n <= 128 ->
  getbits m buf p n = Ok (bfield (astc_word buf) p n).
Proof.
  intros Hb Hl Hp Hn H. pose proof (Z.mod_pos_bound p 8 ltac:(lia)).
  rewrite getbits_ok by (auto; lia). rewrite word_bits by (auto; lia). reflexivity.
Qed.

(** ** Packed digits *)
Lemma land_piece x k n p : 0 <= k -> 0 <= n -> 0 <= p -> Z.land (x / 2 ^ p) (2 ^ k * (2 ^ n - 1)) = bfield x (p + k) n * 2 ^ k.
Proof. intros. rewrite land_shifted by lia. unfold bfield. rewrite div_pow_split by lia. lia. Qed.

Lemma packed_trits b D : 0 <= b -> packed Trits b D =
  bfield D b 2 + bfield D (b * 2 + 2) 2 * 4 + bfield D (b * 3 + 4) 1 * 16 + bfield D (b * 4 + 5) 2 * 32 + bfield D (b * 5 + 7) 1 * 128.
Proof.
  intros. unfold packed. change (zrange 0 (per_block Trits)) with [0; 1; 2; 3; 4]. cbn [map zsum fold_right].
  change (before Trits 0) with 0. change (before Trits 1) with 2. change (before Trits 2) with 4.
  change (before Trits 3) with 5. change (before Trits 4) with 7.
  change (znth (pieces Trits) 0) with 2. change (znth (pieces Trits) 1) with 2. change (znth (pieces Trits) 2) with 1.
  change (znth (pieces Trits) 3) with 2. change (znth (pieces Trits) 4) with 1.
  replace ((0 + 1) * b + 0) with b by lia. replace ((1 + 1) * b + 2) with (b * 2 + 2) by lia.
  replace ((2 + 1) * b + 4) with (b * 3 + 4) by lia. replace ((3 + 1) * b + 5) with (b * 4 + 5) by lia.
  replace ((4 + 1) * b + 7) with (b * 5 + 7) by lia. lia.
Qed.
Lemma packed_quints b D : 0 <= b -> packed Quints b D =
  bfield D b 3 + bfield D (b * 2 + 3) 2 * 8 + bfield D (b * 3 + 5) 2 * 32.
Proof.
  intros. unfold packed. change (zrange 0 (per_block Quints)) with [0; 1; 2]. cbn [map zsum fold_right].
  change (before Quints 0) with 0. change (before Quints 1) with 3. change (before Quints 2) with 5.
  change (znth (pieces Quints) 0) with 3. change (znth (pieces Quints) 1) with 2. change (znth (pieces Quints) 2) with 2.
  replace ((0 + 1) * b + 0) with b by lia. replace ((1 + 1) * b + 3) with (b * 2 + 3) by lia.
  replace ((2 + 1) * b + 5) with (b * 3 + 5) by lia. lia.
Qed.
Lemma packed_bits b D : packed Bits b D = 0.
Proof.
  unfold packed. change (zrange 0 (per_block Bits)) with [0]. cbn [map zsum fold_right].
  change (znth (pieces Bits) 0) with 0. unfold bfield. rewrite Z.pow_0_r, Z.mod_1_r. reflexivity.
Qed.

Lemma trit_index_ok m d b : 0 <= b <= 12 -> trit_index m d b = Ok (packed Trits b d).
Proof.
  intros. unfold trit_index. rewrite !ushr_ok by lia. cbn [bind]. rewrite packed_trits by lia.
  change 3 with (2 ^ 0 * (2 ^ 2 - 1)) at 1. change 0xc with (2 ^ 2 * (2 ^ 2 - 1)). change 0x10 with (2 ^ 4 * (2 ^ 1 - 1)).
  change 0x60 with (2 ^ 5 * (2 ^ 2 - 1)). change 0x80 with (2 ^ 7 * (2 ^ 1 - 1)).
  rewrite !land_piece by lia. rewrite Z.pow_0_r, Z.mul_1_r, Z.add_0_r. f_equal.
  pose proof (bfield_range d b 2 ltac:(lia)). pose proof (bfield_range d (b * 2 + 2) 2 ltac:(lia)).
  pose proof (bfield_range d (b * 3 + 4) 1 ltac:(lia)). pose proof (bfield_range d (b * 4 + 5) 2 ltac:(lia)).
  rewrite (lor_comm_add _ _ 2) by lia. rewrite (lor_comm_add _ _ 4) by lia.
  rewrite (lor_comm_add _ _ 5) by lia. rewrite (lor_comm_add _ _ 7) by lia. lia.
Qed.
Lemma quint_index_ok m d b : 0 <= b <= 20 -> quint_index m d b = Ok (packed Quints b d).
Proof.
  intros. unfold quint_index. rewrite !ushr_ok by lia. cbn [bind]. rewrite packed_quints by lia.
  change 7 with (2 ^ 0 * (2 ^ 3 - 1)). change 0x18 with (2 ^ 3 * (2 ^ 2 - 1)).
  change 0x60 with (2 ^ 5 * (2 ^ 2 - 1)).
  rewrite !land_piece by lia. rewrite Z.pow_0_r, Z.mul_1_r, Z.add_0_r. f_equal.
  pose proof (bfield_range d b 3 ltac:(lia)). pose proof (bfield_range d (b * 2 + 3) 2 ltac:(lia)).
  rewrite (lor_comm_add _ _ 3) by lia. rewrite (lor_comm_add _ _ 5) by lia. lia.
Qed.
Lemma packed_range kd b D : 0 <= b -> 0 <= packed kd b D < 2 ^ zsum (pieces kd).
Proof.
  intros. destruct kd.
  - rewrite packed_bits. cbn. lia.
  - rewrite packed_trits by lia. change (2 ^ zsum (pieces Trits)) with 256.
    pose proof (bfield_range D b 2 ltac:(lia)). pose proof (bfield_range D (b * 2 + 2) 2 ltac:(lia)).
    pose proof (bfield_range D (b * 3 + 4) 1 ltac:(lia)). pose proof (bfield_range D (b * 4 + 5) 2 ltac:(lia)).
    pose proof (bfield_range D (b * 5 + 7) 1 ltac:(lia)). lia.
  - rewrite packed_quints by lia. change (2 ^ zsum (pieces Quints)) with 128.
    pose proof (bfield_range D b 3 ltac:(lia)). pose proof (bfield_range D (b * 2 + 3) 2 ltac:(lia)).
    pose proof (bfield_range D (b * 3 + 5) 2 ltac:(lia)). lia.
Qed.

Lemma trits_sweep : all_below 256 (fun x => forallb (fun j => 
  znth (nth (Z.to_nat j) TRITS_TABLE []) x =? znth (trit_digits x) j) [0; 1; 2; 3; 4]) = true.
Proof. vm_cast_no_check (eq_refl true). Qed.
Lemma quints_sweep : all_below 128 (fun x => forallb (fun j => 
  znth (nth (Z.to_nat j) QUINTS_TABLE []) x =? znth (quint_digits x) j) [0; 1; 2]) = true.
Proof. vm_cast_no_check (eq_refl true). Qed.

Lemma trits_ok j x : 0 <= j < 5 -> 0 <= x < 256 -> exists row, idx TRITS_TABLE j = Ok row /\
  idx row x = Ok (znth (digits Trits x) j).
Proof.
  intros Hj Hx. exists (nth (Z.to_nat j) TRITS_TABLE []). split; [apply idx_ok_d; exact Hj|].
  pose proof (all_below_spec _ _ trits_sweep x Hx) as A. rewrite forallb_forall in A.
  specialize (A j). assert (In j [0; 1; 2; 3; 4]) as I by (cbn; lia). apply A, Z.eqb_eq in I.
  rewrite idx_ok; [rewrite I; reflexivity|].
  assert (zlen (nth (Z.to_nat j) TRITS_TABLE []) = 256) as ->; auto. enum j Hj; reflexivity.
Qed.
Lemma quints_ok j x : 0 <= j < 3 -> 0 <= x < 128 -> exists row, idx QUINTS_TABLE j = Ok row /\
  idx row x = Ok (znth (digits Quints x) j).
Proof.
  intros Hj Hx. exists (nth (Z.to_nat j) QUINTS_TABLE []). split; [apply idx_ok_d; exact Hj|].
  pose proof (all_below_spec _ _ quints_sweep x Hx) as A. rewrite forallb_forall in A.
  specialize (A j). assert (In j [0; 1; 2]) as I by (cbn; lia). apply A, Z.eqb_eq in I.
  rewrite idx_ok; [rewrite I; reflexivity|].
  assert (zlen (nth (Z.to_nat j) QUINTS_TABLE []) = 128) as ->; auto. enum j Hj; reflexivity.
Qed.

(** ** The sequence stored at [offset], upwards or downwards *)
Definition seq_bits (reverse : bool) (W offset size : Z) : Z :=
  if reverse then bfield (rev_bits 128 W) (128 - offset) size else bfield W offset size.
Definition seq_fits (reverse : bool) (offset size : Z) : Prop :=
  if reverse then size <= offset <= 128 else 0 <= offset /\ offset + size <= 128.

Definition filled {A} (d : A) (out0 out : list A) (n : Z) (F : Z -> A) : Prop :=
  zlen out = zlen out0 /\
  forall q, 0 <= q -> nth (Z.to_nat q) out d = if q <? n then F q else nth (Z.to_nat q) out0 d.

Lemma filled_0 {A} (d : A) out F : filled d out out 0 F.
Proof. split; auto. intros q Hq. destruct (Z.ltb_spec q 0); auto; lia. Qed.
Lemma filled_step {A} (d : A) out0 out n F : 0 <= n < zlen out0 -> filled d out0 out n F ->
  filled d out0 (replace_nth (Z.to_nat n) (F n) out) (n + 1) F.
Proof.
  intros Hn [L H]. split; [rewrite zlen_replace_nth; auto|]. intros q Hq.
  rewrite nth_replace_nth by (unfold zlen in *; lia).
  destruct (Nat.eqb_spec (Z.to_nat q) (Z.to_nat n)) as [E|E].
  - assert (q = n) by lia. subst q. destruct (Z.ltb_spec n (n + 1)); auto; lia.
  - rewrite H by auto. destruct (Z.ltb_spec q n), (Z.ltb_spec q (n + 1)); auto; lia.
Qed.

(** Value [j] of the packed block [D]. *)
Definition block_entry (k : radix) (n D j : Z) : Z * Z :=
  (bfield D (j * n + before k j) n, znth (digits k (packed k n D)) j).

(** Splitting into the blocks read by the loop. *)
Lemma packed_word m kd buf b offset reverse size i :
  let W := astc_word buf in
  let bs := block_size kd b in
  let sq := seq_bits reverse W offset size in
  let now := Z.min bs (size - bs * i) in
  bytes buf -> 16 <= zlen buf -> seq_fits reverse offset size ->
  0 <= bs * i -> 1 <= now <= 63 -> bs * i + now <= size ->
  (if reverse then let* g := getbits64 m buf (offset - bs * i - now) now in bit_reverse_u64 m g now
   else getbits64 m buf (offset + bs * i) now) = Ok (bfield sq (bs * i) bs).
Proof.
  intros W bs sq now Hbuf Hlen Hfit A1 A3 A2.
  unfold sq, seq_bits, seq_fits in *. destruct reverse.
  - rewrite getbits64_word by (auto; lia). cbn [bind].
    rewrite bit_reverse_u64_ok by (try apply bfield_range; lia). f_equal.
    replace (offset - bs * i - now) with (Z.of_nat 128 - (128 - (offset - bs * i)) - now) by lia.
    rewrite rev_field by lia. rewrite bfield_bfield by lia. fold now. f_equal. lia.
  - rewrite getbits64_word by (auto; lia). f_equal. rewrite bfield_bfield by lia. fold now. reflexivity.
Qed.

Section Packed.
Context (m : build) (kd : radix) (buf : list Z) (b count offset : Z) (reverse : bool)
  (index : Z -> Z -> res Z) (offs : list Z) (table : list (list Z)) (dw : Z -> Z).
Let k := per_block kd.
Let ibits := zsum (pieces kd).
Let bs := block_size kd b.
Hypothesis (Hk : 1 <= k) (Hb : 0 <= b) (Hbs : bs <= 63) (Hibits : 1 <= ibits) (Hc : 0 < count)
  (Hindex : forall d, index d b = Ok (packed kd b d))
  (Hoffs : forall j, 0 <= j < k -> idx offs j = Ok (before kd j) /\ 0 <= before kd j <= ibits)
  (Htable : forall j x, 0 <= j < k -> 0 <= x < 2 ^ ibits -> exists row, idx table j = Ok row /\
     idx row x = Ok (znth (digits kd x) j)).
Let bc := div_ceil count k.
Let lc := (count + (k - 1)) mod k + 1.
Let ls := div_ceil (bs * lc) k.
Let entry i := block_entry kd b (dw (i / k)) (i mod k).
Hypothesis (Hbc : k * (bc - 1) < count <= k * bc)
  (Hword : forall i, 0 <= i < bc ->
    let p := if reverse then offset - bs * i else offset + bs * i in
    let now := if i <? bc - 1 then bs else ls in
    (if reverse then let* g := getbits64 m buf (p - now) now in bit_reverse_u64 m g now
     else getbits64 m buf p now) = Ok (dw i)).

Lemma packed_loop_ok out : count <= zlen out -> exists out',
  packed_loop m buf offset b count reverse k ibits index offs table out = Ok out' /\
  filled (0, 0) out out' count entry.
Proof.
  intros Hout. assert (k * b <= 62 /\ b <= 62) as [Hkb Hb2].
  { unfold bs, block_size in Hbs. fold k ibits in Hbs.
    assert (1 * b <= k * b) by (apply Z.mul_le_mono_nonneg_r; lia). lia. }
  unfold packed_loop. rewrite ushl_ok by lia. cbn [bind].
  rewrite Z.mul_1_l, Z.mod_small by (split; [pose proof (pow_pos b); lia|apply Z.pow_lt_mono_r; lia]).
  rewrite ua_ok by (pose proof (pow_pos b Hb); pose proof (Z.pow_lt_mono_r 2 b 64); lia). cbn [bind].
  cbv zeta. fold bc lc. change (ibits + k * b) with bs. fold ls.
  destruct (for_range_inv (fun i '(o, n, p) => n = Z.min count (k * i) /\
      p = (if reverse then offset - bs * i else offset + bs * i) /\
      filled (0, 0) out o n entry) 0 bc
     (fun i '(out, n, p) =>
      let* d :=
        if reverse then
          let* g := getbits64 m buf (p - (if i <? bc - 1 then bs else ls)) (if i <? bc - 1 then bs else ls) in
          bit_reverse_u64 m g (if i <? bc - 1 then bs else ls)
        else getbits64 m buf p (if i <? bc - 1 then bs else ls) in
      let* x := index d b in
      let* (out, n) :=
        for_range 0 k (fun j '(out, n) =>
          if n <? count then
            let* o := idx offs j in
            let* s := ushr m 64 d (o + b * j) in
            let* row := idx table j in
            let* t := idx row x in
            let* out := upd out n (Z.land s (2 ^ b - 1), t) in
            Ok (out, n + 1)
          else Ok (out, n)) (out, n) in
      Ok (out, n, if reverse then p - bs else p + bs)) (out, 0, offset)) as (st & E & I).
  - assert (0 < k * bc) by lia. destruct (Z.le_gt_cases 0 bc); auto.
    assert (k * bc <= k * 0) by (apply Z.mul_le_mono_nonneg_l; lia). lia.
  - split; [lia|]. split; [destruct reverse; lia|]. apply filled_0.
  - intros i [[o n] p] Hi (En & Ep & F). cbv zeta. pose proof (Hword i Hi) as D. cbv zeta in D.
    rewrite <- Ep in D. rewrite D. cbn [bind]. rewrite Hindex. cbn [bind]. clear D.
    set (D := dw i).
    destruct (for_range_inv (fun j '(o, n) => n = Z.min count (k * i + j) /\
       filled (0, 0) out o n entry) 0 k
       (fun j '(out, n) =>
          if n <? count then
            let* o := idx offs j in
            let* s := ushr m 64 D (o + b * j) in
            let* row := idx table j in
            let* t := idx row (packed kd b D) in
            let* out := upd out n (Z.land s (2 ^ b - 1), t) in
            Ok (out, n + 1)
          else Ok (out, n)) (o, n)) as (st & E & I).
    + lia.
    + split; [lia|auto].
    + intros j [o' n'] Hj (En' & F'). destruct (Z.ltb_spec n' count).
      * destruct (Hoffs j Hj) as (-> & Bj). cbn [bind].
        assert (0 <= b * j <= k * b - b) by (split; [apply Z.mul_nonneg_nonneg; lia|
          transitivity (b * (k - 1)); [apply Z.mul_le_mono_nonneg_l; lia|lia]]).
        assert (ibits + k * b <= 63) by exact Hbs.
        rewrite ushr_ok by lia. cbn [bind].
        destruct (Htable j (packed kd b D) Hj (packed_range kd b D Hb)) as (row & -> & R). cbn [bind].
        rewrite R. cbn [bind]. rewrite land_mask by lia.
        assert (0 <= k * i) by (apply Z.mul_nonneg_nonneg; lia).
        rewrite upd_ok by (destruct F' as [-> _]; lia). cbn [bind].
        eexists; split; [reflexivity|]. split; [lia|].
        assert ((D / 2 ^ (before kd j + b * j) mod 2 ^ b, znth (digits kd (packed kd b D)) j) =
                entry n') as ->.
        { unfold entry, block_entry.
          assert (n' / k = i /\ n' mod k = j) as [-> ->].
          { replace n' with (k * i + j) by lia. split.
            - symmetry; apply (Z.div_unique _ _ _ j); lia.
            - symmetry; apply (Z.mod_unique _ _ i); lia. }
          fold D. unfold bfield. do 4 f_equal. lia. }
        apply filled_step; auto. lia.
      * eexists; split; [reflexivity|]. split; [lia|auto].
    + rewrite E. destruct st as [o' n']. cbn [bind]. eexists; split; [reflexivity|].
      destruct I as (En' & F'). split; [|split; auto].
      * rewrite En'. f_equal. lia.
      * rewrite Ep. destruct reverse; lia.
  - rewrite E. destruct st as [[o n] p]. destruct I as (En & _ & F). cbn [bind]. exists o. split; auto.
    rewrite En, Z.min_l in F by lia. exact F.
Qed.
End Packed.

(** Which sequences the theorem below covers. *)
Definition quant_ok (k : radix) (n : Z) : Prop :=
  match k with Bits => 0 <= n <= 8 | Trits => 0 <= n <= 6 | Quints => 0 <= n <= 5 end.
(** The source's way of naming the radix. *)
Definition radix_code (k : radix) : Z := match k with Bits => 0 | Trits => 3 | Quints => 5 end.

(** Sizes of the packed blocks. *)
Lemma packed_sizes kd b count : kd <> Bits -> quant_ok kd b -> 0 < count ->
  let k := per_block kd in
  let bs := block_size kd b in
  let bc := div_ceil count k in
  let ls := div_ceil (bs * ((count + (k - 1)) mod k + 1)) k in
  seq_size kd b count = bs * (bc - 1) + ls /\ 1 <= ls <= bs /\ k * (bc - 1) < count <= k * bc /\ 1 <= bc /\ 0 <= b /\ bs <= 63.
Proof.
  intros Hk Hq Hc0. destruct kd; [congruence| |]; cbn [quant_ok per_block] in *; cbv zeta.
  - pose proof (Z.mod_pos_bound (count + 4) 5 ltac:(lia)) as M. pose proof (Z.div_mod (count + 4) 5 ltac:(lia)) as DM.
    assert (div_ceil count 5 = (count + 4) / 5) as C5 by (rewrite div_ceil_eq by lia; f_equal; lia).
    set (q := (count + 4) / 5) in *. change (5 - 1) with 4. set (r := (count + 4) mod 5) in *.
    assert (div_ceil ((8 + 5 * b) * (r + 1)) 5 = b * (r + 1) + (8 * (r + 1) + 4) / 5) as L5.
    { rewrite div_ceil_eq by lia.
      replace ((8 + 5 * b) * (r + 1) + 5 - 1) with (8 * (r + 1) + 4 + b * (r + 1) * 5) by ring.
      rewrite Z.div_add by lia. lia. }
    assert (0 <= b * r <= b * 4) as Br by (split; [apply Z.mul_nonneg_nonneg; lia|apply Z.mul_le_mono_nonneg_l; lia]).
    assert (2 <= (8 * (r + 1) + 4) / 5 <= 8) as Dr by (clear - M; assert (r = 0 \/ r = 1 \/ r = 2 \/ r = 3 \/ r = 4) as [-> | [-> | [-> | [-> | -> ]]]] by lia; vm_compute; split; discriminate).
    change (block_size Trits b) with (8 + 5 * b). rewrite C5, L5. cbn [seq_size].
    split; [|repeat split; lia].
    replace (8 * count + 4) with (8 * (r + 1) + 4 + (8 * (q - 1)) * 5) by lia.
    rewrite Z.div_add by lia. replace count with (5 * (q - 1) + (r + 1)) at 1 by lia. ring.
  - pose proof (Z.mod_pos_bound (count + 2) 3 ltac:(lia)) as M. pose proof (Z.div_mod (count + 2) 3 ltac:(lia)) as DM.
    assert (div_ceil count 3 = (count + 2) / 3) as C3 by (rewrite div_ceil_eq by lia; f_equal; lia).
    set (q := (count + 2) / 3) in *. change (3 - 1) with 2. set (r := (count + 2) mod 3) in *.
    assert (div_ceil ((7 + 3 * b) * (r + 1)) 3 = b * (r + 1) + (7 * (r + 1) + 2) / 3) as L3.
    { rewrite div_ceil_eq by lia.
      replace ((7 + 3 * b) * (r + 1) + 3 - 1) with (7 * (r + 1) + 2 + b * (r + 1) * 3) by ring.
      rewrite Z.div_add by lia. lia. }
    assert (0 <= b * r <= b * 2) as Br by (split; [apply Z.mul_nonneg_nonneg; lia|apply Z.mul_le_mono_nonneg_l; lia]).
    assert (3 <= (7 * (r + 1) + 2) / 3 <= 7) as Dr by (clear - M; assert (r = 0 \/ r = 1 \/ r = 2) as [-> | [-> | -> ]] by lia; vm_compute; split; discriminate).
    change (block_size Quints b) with (7 + 3 * b). rewrite C3, L3. cbn [seq_size].
    split; [|repeat split; lia].
    replace (7 * count + 2) with (7 * (r + 1) + 2 + (7 * (q - 1)) * 3) by lia.
    rewrite Z.div_add by lia. replace count with (3 * (q - 1) + (r + 1)) at 1 by lia. ring.
Qed.

(** The block sizes in one formula. *)
Lemma packed_now kd b count i : kd <> Bits -> quant_ok kd b -> 0 < count ->
  let k := per_block kd in
  let bs := block_size kd b in
  let bc := div_ceil count k in
  let ls := div_ceil (bs * ((count + (k - 1)) mod k + 1)) k in
  let now := Z.min bs (seq_size kd b count - bs * i) in
  0 <= i < bc -> (if i <? bc - 1 then bs else ls) = now /\ 0 <= bs * i /\ 1 <= now <= 63 /\ bs * i + now <= seq_size kd b count.
Proof.
  intros Hk Hq Hc k bs bc ls now Hi. destruct (packed_sizes kd b count Hk Hq Hc) as (S & L & C & B & Hb & Hbs).
  fold k in S, L, C, B. fold bs in S, L, Hbs. fold bc in S, C, B. fold ls in S, L. unfold now. clearbody ls.
  assert (0 <= bs * i) by (apply Z.mul_nonneg_nonneg; lia).
  assert (bs * i <= bs * (bc - 1)) by (apply Z.mul_le_mono_nonneg_l; lia). rewrite S.
  destruct (Z.ltb_spec i (bc - 1)).
  - pose proof (Z.mul_le_mono_nonneg_l 0 (bc - 1 - i - 1) bs ltac:(lia) ltac:(lia)). lia.
  - replace i with (bc - 1) in * by lia. lia.
Qed.

(** Packed sequences, given the words read. *)
Lemma packed_seq_ok m kd buf offset b count (reverse : bool) out dw :
  kd <> Bits -> quant_ok kd b -> 0 < count <= zlen out ->
  let k := per_block kd in
  let bs := block_size kd b in
  (forall i, 0 <= i < div_ceil count k ->
    let now := Z.min bs (seq_size kd b count - bs * i) in
    (if reverse then let* g := getbits64 m buf (offset - bs * i - now) now in bit_reverse_u64 m g now
     else getbits64 m buf (offset + bs * i) now) = Ok (dw i)) ->
  exists out', decode_intseq m buf offset (radix_code kd) b count reverse out = Ok out' /\
    filled (0, 0) out out' count (fun i => block_entry kd b (dw (i / k)) (i mod k)).
Proof.
  intros Hk Hq Hc k bs Hw. destruct (packed_sizes kd b count Hk Hq ltac:(lia)) as (S & L & C & B & Hb & Hbs). cbv zeta in *.
  assert (forall i, 0 <= i < div_ceil count k ->
    let p := if reverse then offset - bs * i else offset + bs * i in
    let now := if i <? div_ceil count k - 1 then bs else div_ceil (bs * ((count + (k - 1)) mod k + 1)) k in
    (if reverse then let* g := getbits64 m buf (p - now) now in bit_reverse_u64 m g now
     else getbits64 m buf p now) = Ok (dw i)) as Hw'.
  { intros i Hi. specialize (Hw i Hi). destruct (packed_now kd b count i Hk Hq ltac:(lia) Hi) as (N & _). fold k bs in N.
    cbv zeta. rewrite N. destruct reverse; exact Hw. }
  unfold decode_intseq. destruct (Z.eqb_spec count 0); [lia|].
  destruct kd; [congruence| |]; cbn [radix_code quant_ok] in *.
  - change (3 =? 3) with true. cbv iota.
    refine (packed_loop_ok m Trits buf b count offset reverse (trit_index m) MT TRITS_TABLE dw _ Hb Hbs _ _ _ _ _ C Hw' out _).
    + cbn; lia.
    + cbn; lia.
    + lia.
    + intros d. apply trit_index_ok; lia.
    + intros j Hj. change (per_block Trits) with 5 in Hj. enum j Hj; split; try reflexivity; vm_compute; split; discriminate.
    + exact trits_ok.
    + lia.
  - change (5 =? 3) with false. change (5 =? 5) with true. cbv iota.
    refine (packed_loop_ok m Quints buf b count offset reverse (quint_index m) MQ QUINTS_TABLE dw _ Hb Hbs _ _ _ _ _ C Hw' out _).
    + cbn; lia.
    + cbn; lia.
    + lia.
    + intros d. apply quint_index_ok; lia.
    + intros j Hj. change (per_block Quints) with 3 in Hj. enum j Hj; split; try reflexivity; vm_compute; split; discriminate.
    + exact quints_ok.
    + lia.
Qed.

Theorem intseq_ok m kd buf offset a b count reverse out :
  bytes buf -> 16 <= zlen buf -> quant_ok kd b ->
  (match kd with Bits => a <> 3 /\ a <> 5 | _ => a = radix_code kd end) ->
  0 <= count <= zlen out -> seq_fits reverse offset (seq_size kd b count) ->
  exists out', decode_intseq m buf offset a b count reverse out = Ok out' /\
    filled (0, 0) out out' count (seq_entry kd b (seq_bits reverse (astc_word buf) offset (seq_size kd b count))).
Proof.
  intros Hbuf Hlen Hq Ha Hc Hfit.
  destruct (Z.eq_dec count 0) as [->|Hc0].
  { exists out. split; auto. apply filled_0. }
  destruct kd; cbn [radix_code quant_ok] in *.
  - unfold decode_intseq. destruct (Z.eqb_spec count 0); [lia|]. destruct Ha as [A3 A5]. destruct (Z.eqb_spec a 3); [lia|]. destruct (Z.eqb_spec a 5); [lia|]. clear A3 A5 n n0 n1.
    cbn [seq_size] in *. set (W := astc_word buf). set (sq := seq_bits reverse W offset (b * count)).
    destruct (for_range_inv (fun n '(o, p) => p = (if reverse then offset - b - b * n else offset + b * n) /\
       filled (0, 0) out o n (seq_entry Bits b sq)) 0 count
      (fun n '(out, p) =>
        let* g := getbits m buf (u64 p) b in
        let* v := if reverse then bit_reverse_u8 m (u8 g) (u8 b) else Ok (u64 g) in
        let* out := upd out n (v, 0) in
        Ok (out, if reverse then p - b else p + b))
      (out, if reverse then offset - b else offset)) as (st & E & I).
    + lia.
    + split; [destruct reverse; lia|apply filled_0].
    + intros n [o p] Hn (Ep & F).
      assert (0 <= b * n /\ b * n + b <= b * count) as [A1 A2].
      { split; [apply Z.mul_nonneg_nonneg; lia|]. transitivity (b * (n + 1)); [lia|]. apply Z.mul_le_mono_nonneg_l; lia. }
      assert (seq_entry Bits b sq n = (bfield sq (b * n) b, 0)) as En.
      { unfold seq_entry. change (per_block Bits) with 1. rewrite Z.div_1_r, Z.mod_1_r.
        change (block_size Bits b) with (1 * b). change (before Bits 0) with 0.
        rewrite !Z.mul_1_l. cbn [digits]. change (znth [0] 0) with 0. f_equal.
        change (0 * b + 0) with 0. unfold bfield at 1. rewrite Z.pow_0_r, Z.div_1_r. apply Z.mod_small, bfield_range; lia. }
      pose proof (Z.pow_le_mono_r 2 b 8 ltac:(lia) ltac:(lia)). change (2 ^ 8) with 256 in *.
      assert (0 <= p /\ p + b <= 128) as [P1 P2] by (unfold seq_fits in Hfit; destruct reverse; lia).
      replace (u64 p) with p by (unfold u64; rewrite Z.mod_small; lia).
      rewrite getbits_word by (auto; lia). cbn [bind]. fold W.
      pose proof (bfield_range W p b ltac:(lia)).
      assert ((if reverse then bit_reverse_u8 m (u8 (bfield W p b)) (u8 b) else Ok (u64 (bfield W p b))) =
        Ok (bfield sq (b * n) b)) as ->.
      { unfold sq, seq_bits, seq_fits in *. destruct reverse.
        - unfold u8. rewrite !Z.mod_small by lia. rewrite bit_reverse_u8_ok by lia. f_equal.
          replace p with (Z.of_nat 128 - (128 - (offset - b * n)) - b) by lia. rewrite rev_field by lia.
          rewrite bfield_bfield by lia. rewrite Z.min_l by lia. f_equal. lia.
        - unfold u64. rewrite Z.mod_small by lia. f_equal. rewrite bfield_bfield by lia. rewrite Z.min_l by lia.
          f_equal. lia. }
      cbn [bind]. rewrite upd_ok by (destruct F as [-> _]; lia). cbn [bind].
      eexists; split; [reflexivity|]. split; [rewrite Ep; destruct reverse; lia|].
      rewrite <- En. apply filled_step; auto. lia.
    + rewrite E. destruct st as [o p]. destruct I as [_ F]. cbn [bind]. eauto.
  - subst a. assert (Trits <> Bits) as NB by discriminate.
    refine (packed_seq_ok m Trits buf offset b count reverse out (fun i => bfield (seq_bits reverse (astc_word buf) offset (seq_size Trits b count)) (block_size Trits b * i) (block_size Trits b)) NB Hq ltac:(lia) _).
    intros i Hi now. destruct (packed_now Trits b count i NB Hq ltac:(lia) Hi) as (_ & A1 & A2 & A3). fold now in A2, A3. apply (packed_word m Trits buf b offset reverse); auto.
  - subst a. assert (Quints <> Bits) as NB by discriminate.
    refine (packed_seq_ok m Quints buf offset b count reverse out (fun i => bfield (seq_bits reverse (astc_word buf) offset (seq_size Quints b count)) (block_size Quints b * i) (block_size Quints b)) NB Hq ltac:(lia) _).
    intros i Hi now. destruct (packed_now Quints b count i NB Hq ltac:(lia) Hi) as (_ & A1 & A2 & A3). fold now in A2, A3. apply (packed_word m Quints buf b offset reverse); auto.
Qed.
