(** * Half-float conversions *)
From Verif Require Import Base BaseLemmas SpecF16 ModelF16.
From Coq Require Import Floats.SpecFloat.

(** ** Exact operations of [spec_float] *)
Lemma digits2_bounds p : 2 ^ (Zpos (digits2_pos p) - 1) <= Zpos p < 2 ^ Zpos (digits2_pos p).
Proof.
  induction p as [p IH|p IH|]; cbn [digits2_pos]; [| |cbn; lia];
    rewrite Pos2Z.inj_succ;
    replace (Z.succ (Zpos (digits2_pos p)) - 1) with (Z.succ (Zpos (digits2_pos p) - 1)) by lia;
    rewrite (Z.pow_succ_r 2 (Zpos (digits2_pos p))), (Z.pow_succ_r 2 (Zpos (digits2_pos p) - 1)) by lia;
    [rewrite Pos2Z.inj_xI|change (Zpos (xO p)) with (2 * Zpos p)];
    revert IH; generalize (2 ^ Zpos (digits2_pos p)), (2 ^ (Zpos (digits2_pos p) - 1)); intros; lia.
Qed.

Lemma digits2_unique p d : 0 < d -> 2 ^ (d - 1) <= Zpos p < 2 ^ d -> Zpos (digits2_pos p) = d.
Proof.
  intros Hd H. pose proof (digits2_bounds p) as B. set (k := Zpos (digits2_pos p)) in *.
  assert (0 < k) by (unfold k; lia).
  destruct (Z.lt_trichotomy k d) as [L|[E|L]]; [|exact E|]; exfalso.
  - assert (2 ^ k <= 2 ^ (d - 1)) by (apply Z.pow_le_mono_r; lia). lia.
  - assert (2 ^ d <= 2 ^ (k - 1)) by (apply Z.pow_le_mono_r; lia). lia.
Qed.

Lemma iter_shr_exact p : forall m a, m = a * 2 ^ Zpos p -> 0 < a ->
  iter_pos shr_1 p {| shr_m := m; shr_r := false; shr_s := false |} = {| shr_m := a; shr_r := false; shr_s := false |}.
Proof.
  assert (forall m a, m = a * 2 -> 0 < a ->
    shr_1 {| shr_m := m; shr_r := false; shr_s := false |} = {| shr_m := a; shr_r := false; shr_s := false |}) as H1.
  { intros m a -> Ha. destruct a as [|a|a]; try lia. rewrite Z.mul_comm. reflexivity. }
  induction p as [p IH|p IH|]; intros m a Hm Ha; cbn [iter_pos].
  - rewrite Pos2Z.inj_xI in Hm.
    rewrite (H1 m (a * 2 ^ Zpos p * 2 ^ Zpos p)).
    + rewrite (IH _ (a * 2 ^ Zpos p)); [apply IH; auto|auto|]. apply Z.mul_pos_pos; [lia|apply Z.pow_pos_nonneg; lia].
    + rewrite Hm, Z.pow_add_r, Z.pow_1_r by lia. replace (2 * Z.pos p) with (Z.pos p + Z.pos p) by lia.
      rewrite Z.pow_add_r by lia. ring.
    + pose proof (Z.pow_pos_nonneg 2 (Zpos p)). apply Z.mul_pos_pos; [apply Z.mul_pos_pos|]; lia.
  - change (Zpos (xO p)) with (2 * Zpos p) in Hm.
    rewrite (IH m (a * 2 ^ Zpos p)); [apply IH; auto| |].
    + rewrite Hm. replace (2 * Z.pos p) with (Z.pos p + Z.pos p) by lia. rewrite Z.pow_add_r by lia. ring.
    + apply Z.mul_pos_pos; [lia|apply Z.pow_pos_nonneg; lia].
  - apply H1; [rewrite Hm; reflexivity|auto].
Qed.

Lemma shr_fexp_exact m ex n r : m = r * 2 ^ n -> 0 <= n -> 2 ^ 23 <= r < 2 ^ 24 -> -149 <= ex + n ->
  shr_fexp 24 128 m ex loc_Exact = ({| shr_m := r; shr_r := false; shr_s := false |}, ex + n).
Proof.
  intros Hm Hn Hr He. unfold shr_fexp.
  assert (0 < 2 ^ n) by (apply Z.pow_pos_nonneg; lia).
  destruct m as [|p|p]; try nia.
  assert (Zdigits2 (Zpos p) = 24 + n) as ->.
  { cbn [Zdigits2]. apply digits2_unique; [lia|]. rewrite Hm.
    replace (24 + n - 1) with (23 + n) by lia. rewrite !Z.pow_add_r by lia. nia. }
  unfold fexp, SpecFloat.emin.
  replace (Z.max (24 + n + ex - 24) (3 - 128 - 24) - ex) with n by lia.
  cbn [shr_record_of_loc]. unfold shr. destruct n as [|n|n]; try lia.
  - rewrite Z.mul_1_r in Hm. rewrite Hm. f_equal. lia.
  - f_equal. apply iter_shr_exact; [exact Hm|lia].
Qed.

Lemma round_exact s m ex n r : Zpos m = Zpos r * 2 ^ n -> 0 <= n -> 2 ^ 23 <= Zpos r < 2 ^ 24 -> -149 <= ex + n <= 104 ->
  binary_round_aux 24 128 s (Zpos m) ex loc_Exact = S754_finite s r (ex + n).
Proof.
  intros Hm Hn Hr He. unfold binary_round_aux.
  rewrite (shr_fexp_exact _ ex n (Zpos r)) by (auto; lia). cbn [shr_m].
  replace (round_nearest_even (Zpos r) (loc_of_shr_record {| shr_m := Z.pos r; shr_r := false; shr_s := false |}))
    with (Zpos r) by reflexivity.
  rewrite (shr_fexp_exact _ (ex + n) 0 (Zpos r)) by lia. cbn [shr_m].
  replace (ex + n + 0) with (ex + n) by lia.
  destruct (Z.leb_spec (ex + n) (128 - 24)); [reflexivity|lia].
Qed.

Lemma mul_exact s1 m1 e1 s2 m2 e2 n r : Zpos m1 * Zpos m2 = Zpos r * 2 ^ n -> 0 <= n -> 2 ^ 23 <= Zpos r < 2 ^ 24 ->
  -149 <= e1 + e2 + n <= 104 ->
  f32_mul (S754_finite s1 m1 e1) (S754_finite s2 m2 e2) = S754_finite (xorb s1 s2) r (e1 + e2 + n).
Proof. intros. unfold f32_mul, SFmul. apply round_exact; auto. Qed.

(** Small integers are exact. *)
Lemma shl_align_val m e e' : e' <= e -> Zpos (fst (shl_align m e e')) = Zpos m * 2 ^ (e - e') /\ snd (shl_align m e e') = e'.
Proof.
  intros H. unfold shl_align. destruct (e' - e) as [|p|p] eqn:E; try lia.
  - replace (e - e') with 0 by lia. cbn. split; lia.
  - replace (e - e') with (Zpos p) by lia. cbn [fst snd]. split; [|lia].
    unfold Zpower.shift_pos.
    clear. assert (forall k, Zpos (Pos.iter xO k p) = Zpos k * 2 ^ Zpos p) as K; [|apply K].
    induction p using Pos.peano_ind; intros k.
    + cbn. lia.
    + rewrite Pos.iter_succ. rewrite (Pos2Z.inj_xO (Pos.iter xO k p)), IHp, Pos2Z.inj_succ, Z.pow_succ_r by lia. ring.
Qed.

Lemma of_int_exact i : 0 < i < 2 ^ 24 ->
  exists r k, 0 <= k <= 23 /\ Zpos r = i * 2 ^ k /\ 2 ^ 23 <= Zpos r < 2 ^ 24 /\
    f32_of_int i = S754_finite false r (- k) /\ f32_of_int (- i) = S754_finite true r (- k).
Proof.
  intros H. destruct i as [|p|p]; try lia.
  pose proof (digits2_bounds p) as B. remember (Zpos (digits2_pos p)) as d eqn:Ed.
  assert (1 <= d) by (rewrite Ed; lia).
  assert (d <= 24).
  { destruct (Z.le_gt_cases d 24); [auto|]. assert (2 ^ 24 <= 2 ^ (d - 1)) by (apply Z.pow_le_mono_r; lia). lia. }
  destruct (shl_align_val p 0 (d - 24)) as [A1 A2]; [lia|].
  destruct (shl_align p 0 (d - 24)) as [r e] eqn:E. cbn [fst snd] in *. subst e.
  replace (0 - (d - 24)) with (24 - d) in A1 by lia.
  assert (2 ^ 23 <= Zpos r < 2 ^ 24).
  { rewrite A1. assert (0 < 2 ^ (24 - d)) by (apply Z.pow_pos_nonneg; lia).
    assert (2 ^ 23 = 2 ^ (d - 1) * 2 ^ (24 - d)) as -> by (rewrite <- Z.pow_add_r by lia; f_equal; lia).
    assert (2 ^ 24 = 2 ^ d * 2 ^ (24 - d)) as -> by (rewrite <- Z.pow_add_r by lia; f_equal; lia).
    split; [apply Z.mul_le_mono_nonneg_r|apply Z.mul_lt_mono_pos_r]; lia. }
  exists r, (24 - d). split; [lia|]. split; [exact A1|]. split; [auto|].
  assert (forall s, binary_round 24 128 s p 0 = S754_finite s r (- (24 - d))) as K.
  { intros s. unfold binary_round. rewrite <- Ed. unfold fexp, SpecFloat.emin.
    replace (Z.max (d + 0 - 24) (3 - 128 - 24)) with (d - 24) by lia. rewrite E.
    rewrite (round_exact s r (d - 24) 0 r) by lia. f_equal. lia. }
  split; [apply (K false)|apply (K true)].
Qed.

(** Clamping to 0..255 and casting a positive canonical float. *)
Lemma clamp_pos r e : 2 ^ 23 <= Zpos r < 2 ^ 24 ->
  f32_as 0 255 (f32_clamp f32_zero f32_255 (S754_finite false r e)) = Z.min 255 (f32_trunc (S754_finite false r e)).
Proof.
  intros Hr. unfold f32_clamp. change (f32_lt (S754_finite false r e) f32_zero) with false. cbv iota.
  change f32_255 with (S754_finite false 16711680 (-16)).
  unfold f32_lt, SFltb, SFcompare.
  assert (0 <= f32_trunc (S754_finite false r e)) as H0.
  { cbn [f32_trunc]. destruct (Z.leb_spec 0 e); [apply Z.mul_nonneg_nonneg; [lia|apply Z.pow_nonneg; lia]|].
    apply Z.div_pos; [lia|apply Z.pow_pos_nonneg; lia]. }
  assert (-16 <= e -> 16711680 <= Zpos r \/ -16 < e -> 255 <= f32_trunc (S754_finite false r e)) as Hbig.
  { intros He Hc. cbn [f32_trunc]. destruct (Z.leb_spec 0 e).
    - assert (1 <= 2 ^ e) by (apply (Z.pow_le_mono_r 2 0 e); lia). nia.
    - apply Z.div_le_lower_bound; [apply Z.pow_pos_nonneg; lia|].
      destruct Hc as [Hc|Hc].
      + assert (2 ^ (- e) <= 2 ^ 16) by (apply Z.pow_le_mono_r; lia). lia.
      + assert (2 ^ (- e) <= 2 ^ 15) by (apply Z.pow_le_mono_r; lia). lia. }
  assert (forall x : f32, (x = S754_finite false 16711680 (-16) -> 255 <= f32_trunc (S754_finite false r e)) ->
    x = S754_finite false 16711680 (-16) \/ x = S754_finite false r e ->
    f32_as 0 255 x = Z.min 255 (f32_trunc (S754_finite false r e))) as K.
  { intros x H1 [-> | ->].
    - specialize (H1 eq_refl). rewrite Z.min_l by lia. reflexivity.
    - unfold f32_as. lia. }
  apply K; clear K.
  - destruct (Z.compare_spec (-16) e) as [E|E|E].
    + subst e. destruct (Pos.compare_cont Eq 16711680 r) eqn:C; intros X; try (injection X; intros; subst; apply Hbig; lia).
      apply Hbig; [lia|]. left. fold (Pos.compare 16711680 r) in C. rewrite Pos.compare_lt_iff in C. apply Pos2Z.pos_lt_pos in C. apply Z.lt_le_incl. exact C.
    + intros _. apply Hbig; lia.
    + intros X. injection X; intros; lia.
  - match goal with |- (if ?c then _ else _) = _ \/ _ => destruct c; auto end.
Qed.

(** ** Normal halves *)
Section Normal.
Context (s e f : Z) (Hs : s = 0 \/ s = 1) (He : 1 <= e <= 30) (Hf : 0 <= f < 1024).
Let h := s * 32768 + e * 1024 + f.
Let mant := Z.to_pos ((1024 + f) * 2 ^ 13).
Lemma mant_val : Zpos mant = (1024 + f) * 2 ^ 13.
Proof. unfold mant. rewrite Z2Pos.id; lia. Qed.

Lemma from_bits_normal (sg : bool) E F : 1 <= E <= 254 -> 0 <= F < 2 ^ 23 ->
  fp32_from_bits ((if sg then 2 ^ 31 else 0) + E * 2 ^ 23 + F) = S754_finite sg (Z.to_pos (F + 2 ^ 23)) (E - 150).
Proof.
  intros HE HF. set (x := _ + F). unfold fp32_from_bits.
  assert (x mod 2 ^ 23 = F) as ->.
  { symmetry. apply Z.mod_unique with ((if sg then 2 ^ 8 else 0) + E); [lia|]. unfold x. destruct sg; lia. }
  assert (x / 2 ^ 23 = (if sg then 2 ^ 8 else 0) + E) as ->.
  { symmetry. apply Z.div_unique with F; [lia|]. unfold x. destruct sg; lia. }
  assert (((if sg then 2 ^ 8 else 0) + E) mod 256 = E) as ->.
  { symmetry. apply Z.mod_unique with (if sg then 1 else 0); [lia|]. destruct sg; lia. }
  assert (Z.testbit x 31 = sg) as ->.
  { apply Z.b2z_inj. rewrite Z.testbit_spec' by lia.
    assert (x / 2 ^ 31 = Z.b2z sg) as ->; [|destruct sg; reflexivity].
    symmetry. apply Z.div_unique with (E * 2 ^ 23 + F); [|unfold x; destruct sg; cbn [Z.b2z]]; lia. }
  destruct (Z.eqb_spec E 255); [lia|]. destruct (Z.eqb_spec E 0); [lia|]. reflexivity.
Qed.

Lemma two_w_val : u32 (h * 2 ^ 16 + h * 2 ^ 16) = (e * 1024 + f) * 2 ^ 17.
Proof. unfold u32, h. symmetry. apply Z.mod_unique with s; lia. Qed.

Lemma sign_val : Z.land (h * 2 ^ 16) 0x80000000 = s * 2 ^ 31.
Proof.
  change 0x80000000 with (1 * 2 ^ 31).
  replace (h * 2 ^ 16) with (s * 2 ^ 31 + (e * 1024 + f) * 2 ^ 16) by (unfold h; lia).
  set (g := (e * 1024 + f) * 2 ^ 16). assert (0 <= g < 2 ^ 31) by (unfold g; lia).
  rewrite <- (Z.lor_0_r (1 * 2 ^ 31)). rewrite <- (lor_add s g 31) by lia.
  rewrite Z.lor_0_r. rewrite Z.land_lor_distr_l.
  assert (Z.land g (1 * 2 ^ 31) = 0) as ->.
  { rewrite Z.mul_1_l. apply Z.bits_inj'. intros n Hn. rewrite Z.land_spec, Z.bits_0, Z.pow2_bits_eqb by lia.
    destruct (Z.eqb_spec 31 n); [subst|apply andb_false_r]. rewrite andb_true_r.
    apply Z.bits_above_log2; [lia|]. destruct (Z.eq_dec g 0) as [->|]; [cbn; lia|]. apply Z.log2_lt_pow2; lia. }
  rewrite Z.lor_0_r. destruct Hs as [-> | ->]; reflexivity.
Qed.

Lemma half_bits : fp32_to_bits (S754_finite false mant (e - 38)) = (e + 112) * 2 ^ 23 + f * 2 ^ 13.
Proof.
  unfold fp32_to_bits. rewrite mant_val. destruct (Z.ltb_spec ((1024 + f) * 2 ^ 13) (2 ^ 23)); lia.
Qed.

Lemma half_value_bits : Z.lor (s * 2 ^ 31) ((e + 112) * 2 ^ 23 + f * 2 ^ 13) = (if s =? 1 then 2 ^ 31 else 0) + (e + 112) * 2 ^ 23 + f * 2 ^ 13.
Proof. rewrite lor_add by lia. destruct Hs as [-> | ->]; cbn [Z.eqb Pos.eqb]; lia. Qed.

Lemma half_value : fp16_ieee_to_fp32_value h = S754_finite (s =? 1) mant (e - 38).
Proof.
  unfold fp16_ieee_to_fp32_value. cbv zeta. rewrite two_w_val, sign_val.
  change (Z.shiftl 1 27) with (2 ^ 27).
  destruct (Z.ltb_spec ((e * 1024 + f) * 2 ^ 17) (2 ^ 27)); [lia|].
  rewrite shr_div by lia.
  assert ((e * 1024 + f) * 2 ^ 17 / 2 ^ 4 + u32 (Z.shiftl 224 23) = (if false then 2 ^ 31 else 0) + (e + 224) * 2 ^ 23 + f * 2 ^ 13) as ->.
  { change (u32 (Z.shiftl 224 23)) with (224 * 2 ^ 23).
    replace ((e * 1024 + f) * 2 ^ 17) with ((e * 1024 + f) * 2 ^ 13 * 2 ^ 4) by lia. rewrite Z.div_mul by lia. cbv iota. lia. }
  rewrite (from_bits_normal false (e + 224) (f * 2 ^ 13)) by lia.
  change (fp32_from_bits 125829120) with (S754_finite false 8388608 (-135)).
  replace (f * 2 ^ 13 + 2 ^ 23) with ((1024 + f) * 2 ^ 13) by lia. fold mant.
  pose proof mant_val as Hm.
  rewrite (mul_exact false mant (e + 224 - 150) false 8388608 (-135) 23 mant) by lia.
  replace (e + 224 - 150 + -135 + 23) with (e - 38) by lia. cbn [xorb].
  rewrite half_bits, half_value_bits. 
  rewrite (from_bits_normal (s =? 1) (e + 112) (f * 2 ^ 13)) by lia. f_equal; [|lia]. unfold mant; f_equal; lia.
Qed.

Lemma half_parts : half_exp h = e /\ half_frac h = f /\ half_sign h = s /\ half_num h = (1024 + f) * 2 ^ (e - 1).
Proof.
  assert (half_exp h = e) as E1.
  { unfold half_exp. assert (h / 2 ^ 10 = s * 32 + e) as -> by (symmetry; apply Z.div_unique with f; unfold h; lia).
    symmetry. apply Z.mod_unique with s; lia. }
  assert (half_frac h = f) as E2 by (symmetry; apply Z.mod_unique with (s * 32 + e); unfold h; lia).
  split; [auto|]. split; [auto|]. split.
  - symmetry; apply Z.div_unique with (e * 1024 + f); unfold h; lia.
  - unfold half_num. rewrite E1, E2. destruct (Z.eqb_spec e 0); [lia|]. reflexivity.
Qed.

(** 255 times the value. *)
Lemma half_255 : exists r k, 5 <= k <= 6 /\ Zpos r = (1024 + f) * 255 * 2 ^ k /\ 2 ^ 23 <= Zpos r < 2 ^ 24 /\
  f32_mul (fp16_ieee_to_fp32_value h) f32_255 = S754_finite (s =? 1) r (e - 25 - k).
Proof.
  set (k := if f <? 5 then 6 else 5). assert (k = 6 /\ f < 5 \/ k = 5 /\ 5 <= f) as Hk by (unfold k; destruct (Z.ltb_spec f 5); lia).
  clearbody k. exists (Z.to_pos ((1024 + f) * 255 * 2 ^ k)), k.
  assert (0 < (1024 + f) * 255 * 2 ^ k) by (destruct Hk as [[-> _]|[-> _]]; lia).
  rewrite Z2Pos.id by auto. assert (2 ^ 23 <= (1024 + f) * 255 * 2 ^ k < 2 ^ 24) by (destruct Hk as [[-> ?]|[-> ?]]; lia).
  split; [lia|]. split; [auto|]. split; [auto|].
  rewrite half_value. change f32_255 with (S754_finite false 16711680 (-16)).
  rewrite (mul_exact (s =? 1) mant (e - 38) false 16711680 (-16) (29 - k) (Z.to_pos ((1024 + f) * 255 * 2 ^ k))).
  - f_equal; [|lia]. destruct (s =? 1); reflexivity.
  - rewrite Z2Pos.id, mant_val by auto. destruct Hk as [[-> ?]|[-> ?]]; lia.
  - lia.
  - rewrite Z2Pos.id by auto. auto.
  - lia.
Qed.

Lemma trunc_255 r k sg : 5 <= k <= 6 -> Zpos r = (1024 + f) * 255 * 2 ^ k ->
  f32_trunc (S754_finite sg r (e - 25 - k)) = (if sg then -1 else 1) * (255 * half_num h / 2 ^ 24).
Proof.
  intros Hk Hr. destruct half_parts as (_ & _ & _ & ->). cbn [f32_trunc].
  assert ((if 0 <=? e - 25 - k then Zpos r * 2 ^ (e - 25 - k) else Zpos r / 2 ^ (- (e - 25 - k))) = 255 * ((1024 + f) * 2 ^ (e - 1)) / 2 ^ 24) as ->; [|destruct sg; lia].
  rewrite Hr. destruct (Z.leb_spec 0 (e - 25 - k)).
  - assert (e = 30 /\ k = 5) as [-> ->] by lia.
    apply Z.div_unique_exact; [lia|]. change (2 ^ (30 - 25 - 5)) with 1. change (2 ^ (30 - 1)) with 536870912. lia.
  - replace (- (e - 25 - k)) with (k + (25 - e)) by lia.
    destruct (Z.le_gt_cases e 25).
    2:{ assert (0 < 2 ^ (k + (25 - e))) by (apply Z.pow_pos_nonneg; lia).
      replace ((1024 + f) * 255 * 2 ^ k) with ((1024 + f) * 255 * 2 ^ (e - 25) * 2 ^ (k + (25 - e))).
      2:{ rewrite <- Z.mul_assoc, <- Z.pow_add_r by lia. do 2 f_equal. lia. }
      rewrite Z.div_mul by lia.
      replace (255 * ((1024 + f) * 2 ^ (e - 1))) with ((1024 + f) * 255 * 2 ^ (e - 25) * 2 ^ 24).
      2:{ rewrite <- Z.mul_assoc, <- Z.pow_add_r by lia. replace (e - 25 + 24) with (e - 1) by lia. ring. }
      rewrite Z.div_mul by lia. reflexivity. }
    rewrite Z.pow_add_r by lia.
    rewrite (Z.mul_comm (2 ^ k)), Z.div_mul_cancel_r by (try apply Z.pow_nonzero; lia).
    replace (2 ^ 24) with (2 ^ (25 - e) * 2 ^ (e - 1)) by (rewrite <- Z.pow_add_r by lia; f_equal; lia).
    replace (255 * ((1024 + f) * 2 ^ (e - 1))) with ((1024 + f) * 255 * 2 ^ (e - 1)) by ring.
    rewrite Z.div_mul_cancel_r by (apply Z.pow_nonzero; lia). reflexivity.
Qed.

Lemma q_bounds : 0 <= 255 * half_num h / 2 ^ 24 < 2 ^ 24.
Proof.
  destruct half_parts as (_ & _ & _ & ->).
  assert (0 < 2 ^ (e - 1)) by (apply Z.pow_pos_nonneg; lia).
  assert (2 ^ (e - 1) <= 2 ^ 29) by (apply Z.pow_le_mono_r; lia).
  split; [apply Z.div_pos; lia|]. apply Z.div_lt_upper_bound; nia.
Qed.

Lemma normal_byte : half_byte h = if s =? 1 then 0 else Z.min 255 (255 * half_num h / 2 ^ 24).
Proof.
  unfold half_byte. destruct half_parts as (-> & _ & -> & _). destruct (Z.eqb_spec e 31); [lia|]. reflexivity.
Qed.

Lemma normal_f16_to_u8 : f16_to_u8 h = half_byte h.
Proof.
  rewrite normal_byte. unfold f16_to_u8, bc6_f32_to_u8.
  destruct half_255 as (r & k & Hk & Hr & Hb & ->).
  destruct Hs as [E|E]; rewrite E; cbn [Z.eqb Pos.eqb].
  - rewrite clamp_pos by auto. rewrite trunc_255 by auto. f_equal. lia.
  - unfold f32_clamp. change (f32_lt (S754_finite true r (e - 25 - k)) f32_zero) with true. reflexivity.
Qed.

Lemma normal_astc_f16_to_u8 m : astc_f16_to_u8 m h = Ok (half_byte h).
Proof.
  rewrite normal_byte. unfold astc_f16_to_u8, astc_f32_to_u8.
  destruct half_255 as (r & k & Hk & Hr & Hb & ->). unfold floor_f32.
  set (i := f32_as (- 2 ^ 31) _ _).
  assert (i = (if s =? 1 then -1 else 1) * (255 * half_num h / 2 ^ 24)) as Hi.
  { unfold i, f32_as. rewrite trunc_255 by auto. pose proof q_bounds as Q. clear i. revert Q. generalize (255 * half_num h / 2 ^ 24). intros q Q.
    destruct (s =? 1); cbv iota; lia. }
  rewrite Hi. clear i Hi. pose proof q_bounds as Q. set (q := 255 * half_num h / 2 ^ 24) in *. clearbody q.
  assert (forall i, 0 <= i < 2 ^ 24 -> f32_as 0 255 (f32_clamp f32_zero f32_255 (f32_of_int i)) = Z.min 255 i) as P.
  { intros i Hi. destruct (Z.eq_dec i 0) as [->|]; [reflexivity|].
    destruct (of_int_exact i) as (r' & k' & Hk' & Hr' & Hb' & -> & _); [lia|].
    rewrite clamp_pos by auto. f_equal. cbn [f32_trunc]. rewrite Hr'. rewrite Z.opp_involutive.
    destruct (Z.leb_spec 0 (- k')).
    - assert (k' = 0) as -> by lia. change (2 ^ (- 0)) with 1. lia.
    - apply Z.div_mul. apply Z.pow_nonzero; lia. }
  assert (forall i, 0 <= i <= 2 ^ 24 -> f32_as 0 255 (f32_clamp f32_zero f32_255 (f32_of_int (- i))) = 0) as N.
  { intros i Hi. destruct (Z.eq_dec i 0) as [->|]; [reflexivity|].
    destruct (Z.eq_dec i (2 ^ 24)) as [->|]; [vm_compute; reflexivity|].
    destruct (of_int_exact i) as (r' & k' & Hk' & Hr' & Hb' & _ & ->); [lia|]. reflexivity. }
  destruct Hs as [E|E]; rewrite E; cbn [Z.eqb Pos.eqb].
  - change (f32_lt (S754_finite false r (e - 25 - k)) f32_zero) with false. cbn [andb].
    cbn [bind]. f_equal. rewrite Z.mul_1_l. apply P; lia.
  - destruct (_ && _); [replace (-1 * q - 1) with (- (q + 1)) by lia; rewrite ia_ok by lia|replace (-1 * q) with (- q) by lia];
      cbn [bind]; f_equal; apply N; lia.
Qed.
End Normal.

(** ** Subnormal and special halves: 2048 patterns and a case distinction *)
Definition single_ok (h : Z) : bool :=
  let x := fp32_to_bits (fp16_ieee_to_fp32_value h) in
  let e := x / 2 ^ 23 mod 256 in
  (e <? 255) && (x / 2 ^ 31 =? half_sign h) && (single_num x =? half_num h * 2 ^ 125).
Definition is_ok_byte (r : res Z) (v : Z) : bool := match r with Ok x => x =? v | _ => false end.
Lemma is_ok_byte_spec r v : is_ok_byte r v = true -> r = Ok v.
Proof. destruct r; try discriminate. cbn. intros E. apply Z.eqb_eq in E. subst; auto. Qed.
Definition sub_ok (h : Z) : bool :=
  (f16_to_u8 h =? half_byte h) &&
  (is_ok_byte (astc_f16_to_u8 Checked h) (half_byte h) && is_ok_byte (astc_f16_to_u8 Wrapping h) (half_byte h)) && single_ok h.
Lemma sub_sweep : all_below 1024 (fun f => sub_ok f && sub_ok (32768 + f)) = true.
Proof. vm_cast_no_check (eq_refl true). Qed.
Lemma sub_all s f : s = 0 \/ s = 1 -> 0 <= f < 1024 -> sub_ok (s * 32768 + 0 * 1024 + f) = true.
Proof.
  intros Hs Hf. pose proof (all_below_spec _ _ sub_sweep f Hf) as S. cbv beta in S. apply andb_prop in S.
  destruct Hs as [-> | ->]; [apply S|]. replace (1 * 32768 + 0 * 1024 + f) with (32768 + f) by lia. apply S.
Qed.

Lemma special_value s f : s = 0 \/ s = 1 -> 0 <= f < 1024 ->
  fp16_ieee_to_fp32_value (s * 32768 + 31 * 1024 + f) = if f =? 0 then S754_infinity (s =? 1) else S754_nan.
Proof.
  intros Hs Hf. destruct (Z.eqb_spec f 0) as [->|N]; [destruct Hs as [-> | ->]; vm_compute; reflexivity|].
  unfold fp16_ieee_to_fp32_value. cbv zeta. set (h := _ + f).
  assert (u32 (h * 2 ^ 16 + h * 2 ^ 16) = (31 * 1024 + f) * 2 ^ 17) as ->.
  { unfold u32. symmetry. apply Z.mod_unique with s; unfold h; lia. }
  change (Z.shiftl 1 27) with (2 ^ 27). destruct (Z.ltb_spec ((31 * 1024 + f) * 2 ^ 17) (2 ^ 27)); [lia|].
  rewrite shr_div by lia.
  assert ((31 * 1024 + f) * 2 ^ 17 / 2 ^ 4 + u32 (Z.shiftl 224 23) = 255 * 2 ^ 23 + f * 2 ^ 13) as ->.
  { change (u32 (Z.shiftl 224 23)) with (224 * 2 ^ 23).
    replace ((31 * 1024 + f) * 2 ^ 17) with ((31 * 1024 + f) * 2 ^ 13 * 2 ^ 4) by lia. rewrite Z.div_mul by lia. lia. }
  unfold fp32_from_bits at 2.
  assert ((255 * 2 ^ 23 + f * 2 ^ 13) / 2 ^ 23 = 255) as -> by (symmetry; apply Z.div_unique with (f * 2 ^ 13); lia).
  assert ((255 * 2 ^ 23 + f * 2 ^ 13) mod 2 ^ 23 = f * 2 ^ 13) as -> by (symmetry; apply Z.mod_unique with 255; lia).
  change (255 mod 256 =? 255) with true. cbv iota. destruct (Z.eqb_spec (f * 2 ^ 13) 0); [lia|].
  change (f32_mul S754_nan (fp32_from_bits 125829120)) with S754_nan. change (fp32_to_bits S754_nan) with 0x7fc00000.
  assert (exists b, Z.land (h * 2 ^ 16) 0x80000000 = b * 2 ^ 31 /\ (b = 0 \/ b = 1)) as (b & -> & Hb).
  { destruct (Z.testbit (h * 2 ^ 16) 31) eqn:T; [exists 1|exists 0]; (split; [|auto]).
    all: change 0x80000000 with (2 ^ 31); apply Z.bits_inj'; intros j Hj.
    - rewrite Z.land_spec, Z.mul_1_l, Z.pow2_bits_eqb by lia. destruct (Z.eqb_spec 31 j); [subst; rewrite T; auto|apply andb_false_r].
    - rewrite Z.land_spec, Z.mul_0_l, Z.bits_0, Z.pow2_bits_eqb by lia.
      destruct (Z.eqb_spec 31 j); [subst; rewrite T; auto|apply andb_false_r]. }
  destruct Hb as [-> | ->]; reflexivity.
Qed.

Lemma half_split h : 0 <= h < 65536 -> exists s e f, (s = 0 \/ s = 1) /\ 0 <= e <= 31 /\ 0 <= f < 1024 /\ h = s * 32768 + e * 1024 + f.
Proof.
  intros H. exists (h / 32768), (h / 1024 mod 32), (h mod 1024).
  assert (h / 32768 = h / 1024 / 32) as E by (rewrite Z.div_div by lia; reflexivity).
  pose proof (Z.div_mod h 1024). pose proof (Z.div_mod (h / 1024) 32).
  pose proof (Z.mod_pos_bound h 1024). pose proof (Z.mod_pos_bound (h / 1024) 32).
  assert (0 <= h / 32768 < 2) by (split; [apply Z.div_pos|apply Z.div_lt_upper_bound]; lia). lia.
Qed.

Lemma special_byte s f : s = 0 \/ s = 1 -> 0 <= f < 1024 ->
  half_byte (s * 32768 + 31 * 1024 + f) = if (f =? 0) && (s =? 0) then 255 else 0.
Proof.
  intros Hs Hf. unfold half_byte, half_exp, half_frac, half_sign.
  set (h := _ + f).
  assert (h / 2 ^ 10 = s * 32 + 31) as -> by (symmetry; apply Z.div_unique with f; unfold h; lia).
  assert ((s * 32 + 31) mod 32 = 31) as -> by (symmetry; apply Z.mod_unique with s; lia).
  assert (h mod 2 ^ 10 = f) as -> by (symmetry; apply Z.mod_unique with (s * 32 + 31); unfold h; lia).
  assert (h / 2 ^ 15 = s) as -> by (symmetry; apply Z.div_unique with (31 * 1024 + f); unfold h; lia).
  reflexivity.
Qed.

Lemma f16_to_u8_ok h : 0 <= h < 65536 -> f16_to_u8 h = half_byte h.
Proof.
  intros H. destruct (half_split h H) as (s & e & f & Hs & He & Hf & ->).
  assert (e = 0 \/ 1 <= e <= 30 \/ e = 31) as [->|[He'| ->]] by lia.
  - pose proof (sub_all s f Hs Hf) as S. unfold sub_ok in S. apply andb_prop in S as [S _]. apply andb_prop in S as [S _].
    apply Z.eqb_eq, S.
  - apply normal_f16_to_u8; auto.
  - rewrite special_byte by auto. unfold f16_to_u8. rewrite special_value by auto.
    destruct (f =? 0); [destruct Hs as [-> | ->]; vm_compute; reflexivity|reflexivity].
Qed.
(** Every half but minus infinity (0xfc00). *)
Lemma astc_f16_to_u8_ok m h : 0 <= h < 65536 -> h <> 0xfc00 -> astc_f16_to_u8 m h = Ok (half_byte h).
Proof.
  intros H NI. destruct (half_split h H) as (s & e & f & Hs & He & Hf & ->).
  assert (e = 0 \/ 1 <= e <= 30 \/ e = 31) as [->|[He'| ->]] by lia.
  - pose proof (sub_all s f Hs Hf) as S. unfold sub_ok in S. apply andb_prop in S as [S _]. apply andb_prop in S as [_ S].
    apply andb_prop in S as [S1 S2]. destruct m; apply is_ok_byte_spec; auto.
  - apply normal_astc_f16_to_u8; auto.
  - rewrite special_byte by auto. unfold astc_f16_to_u8. rewrite special_value by auto.
    destruct (Z.eqb_spec f 0) as [->|]; [destruct Hs as [-> | ->]; [destruct m; vm_compute; reflexivity|lia]|].
    destruct m; vm_compute; reflexivity.
Qed.
Lemma astc_f16_neg_inf m : astc_f16_to_u8 m 0xfc00 = match m with Checked => Panic | Wrapping => Ok 255 end.
Proof. destruct m; vm_compute; reflexivity. Qed.

(** Conversion half -> single is exact. *)
Lemma half_exact h : 0 <= h < 65536 ->
  exists x, fp32_to_bits (fp16_ieee_to_fp32_value h) = x /\
  (half_nan h -> x / 2 ^ 23 mod 256 = 255 /\ x mod 2 ^ 23 <> 0) /\
  (half_inf h -> x = half_sign h * 2 ^ 31 + 255 * 2 ^ 23) /\
  (half_exp h <> 31 -> x / 2 ^ 31 = half_sign h /\ x / 2 ^ 23 mod 256 < 255 /\ single_num x = half_num h * 2 ^ 125).
Proof.
  intros H. eexists; split; [reflexivity|]. destruct (half_split h H) as (s & e & f & Hs & He & Hf & ->).
  assert (forall e, 0 <= e <= 31 -> half_exp (s * 32768 + e * 1024 + f) = e /\ half_frac (s * 32768 + e * 1024 + f) = f /\
    half_sign (s * 32768 + e * 1024 + f) = s) as P.
  { clear e H He. intros e He. unfold half_exp, half_frac, half_sign.
    assert ((s * 32768 + e * 1024 + f) / 2 ^ 10 = s * 32 + e) as -> by (symmetry; apply Z.div_unique with f; lia).
    split; [symmetry; apply Z.mod_unique with s; lia|].
    split; [symmetry; apply Z.mod_unique with (s * 32 + e); lia|symmetry; apply Z.div_unique with (e * 1024 + f); lia]. }
  unfold half_nan, half_inf.
  assert (e = 0 \/ 1 <= e <= 30 \/ e = 31) as [->|[He'| ->]] by lia.
  - destruct (P 0 ltac:(lia)) as (-> & -> & E3).
    pose proof (sub_all s f Hs Hf) as S. unfold sub_ok in S. apply andb_prop in S as [_ S]. unfold single_ok in S. cbv zeta in S.
    apply andb_prop in S as [S S3]. apply andb_prop in S as [S1 S2]. apply Z.ltb_lt in S1. apply Z.eqb_eq in S2, S3.
    split; [intros []; lia|]. split; [intros []; lia|]. auto.
  - destruct (P e ltac:(lia)) as (-> & -> & ->). split; [intros []; lia|]. split; [intros []; lia|]. intros _.
    destruct (half_parts s e f He' Hf) as (_ & _ & _ & ->). rewrite half_value by auto.
    assert (fp32_to_bits (S754_finite (s =? 1) (Z.to_pos ((1024 + f) * 2 ^ 13)) (e - 38)) = s * 2 ^ 31 + (e + 112) * 2 ^ 23 + f * 2 ^ 13) as ->.
    { unfold fp32_to_bits. rewrite Z2Pos.id by lia. destruct (Z.ltb_spec ((1024 + f) * 2 ^ 13) (2 ^ 23)); [lia|].
      destruct Hs as [-> | ->]; cbn [Z.eqb Pos.eqb]; lia. }
    set (x := _ + f * 2 ^ 13).
    assert (x / 2 ^ 23 = s * 256 + (e + 112)) as E1 by (symmetry; apply Z.div_unique with (f * 2 ^ 13); unfold x; lia).
    assert (x / 2 ^ 23 mod 256 = e + 112) as E2 by (rewrite E1; symmetry; apply Z.mod_unique with s; lia).
    assert (x mod 2 ^ 23 = f * 2 ^ 13) as E3 by (symmetry; apply Z.mod_unique with (s * 256 + (e + 112)); unfold x; lia).
    split; [symmetry; apply Z.div_unique with ((e + 112) * 2 ^ 23 + f * 2 ^ 13); unfold x; lia|]. split; [lia|].
    unfold single_num. rewrite E2, E3. destruct (Z.eqb_spec (e + 112) 0); [lia|].
    replace (2 ^ 23 + f * 2 ^ 13) with ((1024 + f) * 2 ^ 13) by lia.
    rewrite <- !Z.mul_assoc, <- !Z.pow_add_r by lia. do 2 f_equal. lia.
  - destruct (P 31 ltac:(lia)) as (-> & -> & ->). rewrite special_value by auto.
    split; [|split; [|intros []; auto]].
    + intros [_ N]. destruct (Z.eqb_spec f 0); [contradiction|]. vm_compute. split; [reflexivity|discriminate].
    + intros [_ ->]. cbn [Z.eqb]. destruct Hs as [-> | ->]; reflexivity.
Qed.

Lemma half_byte_range h : is_byte (half_byte h).
Proof.
  unfold half_byte, is_byte. destruct (_ =? 31); [destruct (_ && _); lia|].
  destruct (_ =? 1); [lia|]. assert (0 <= half_num h).
  { unfold half_num, half_frac. pose proof (Z.mod_pos_bound h (2 ^ 10) ltac:(lia)).
    pose proof (Z.mod_pos_bound (h / 2 ^ 10) 32 ltac:(lia)). fold (half_exp h) in *.
    destruct (Z.eqb_spec (half_exp h) 0); [lia|]. apply Z.mul_nonneg_nonneg; [lia|]. apply Z.pow_nonneg; lia. }
  assert (0 <= 255 * half_num h / 2 ^ 24) by (apply Z.div_pos; lia). lia.
Qed.

Lemma half_byte_meaning h : 0 <= h < 65536 ->
  (half_nan h -> half_byte h = 0) /\
  (half_inf h -> half_byte h = if half_sign h =? 1 then 0 else 255) /\
  (~ half_nan h -> ~ half_inf h ->
     half_byte h = Z.max 0 (Z.min 255 (255 * ((if half_sign h =? 1 then -1 else 1) * half_num h) / 2 ^ 24))).
Proof.
  intros H. assert (half_sign h = 0 \/ half_sign h = 1) as HS.
  { unfold half_sign. change (2 ^ 15) with 32768. assert (0 <= h / 32768 < 2); [|lia].
    split; [apply Z.div_pos|apply Z.div_lt_upper_bound]; lia. }
  assert (0 <= half_num h) as HN.
  { unfold half_num, half_frac, half_exp.
    pose proof (Z.mod_pos_bound h (2 ^ 10) ltac:(lia)). pose proof (Z.mod_pos_bound (h / 2 ^ 10) 32 ltac:(lia)).
    destruct (Z.eqb_spec (h / 2 ^ 10 mod 32) 0); [lia|]. apply Z.mul_nonneg_nonneg; [lia|apply Z.pow_nonneg; lia]. }
  unfold half_nan, half_inf, half_byte. split; [|split].
  - intros [-> N]. cbn [Z.eqb Pos.eqb]. destruct (Z.eqb_spec (half_frac h) 0); [contradiction|]. reflexivity.
  - intros [-> ->]. cbn [Z.eqb Pos.eqb andb]. destruct HS as [-> | ->]; reflexivity.
  - intros N1 N2. destruct (Z.eqb_spec (half_exp h) 31) as [E|E].
    + destruct (Z.eq_dec (half_frac h) 0); exfalso; [apply N2|apply N1]; auto.
    + change (2 ^ 24) with 16777216. generalize dependent (half_num h). intros n HN.
      assert (forall q, 0 <= q -> 0 <= q / 16777216) by (intros; apply Z.div_pos; lia).
      assert (forall q, q <= 0 -> q / 16777216 <= 0)
        by (intros; rewrite <- (Z.div_0_l 16777216) by lia; apply Z.div_le_mono; lia).
      destruct HS as [-> | ->]; cbn [Z.eqb Pos.eqb].
      * rewrite Z.mul_1_l. specialize (H0 (255 * n)). lia.
      * specialize (H1 (255 * (-1 * n))). lia.
Qed.
