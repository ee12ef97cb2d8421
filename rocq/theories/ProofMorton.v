(** * PVRTC block addressing *)
From Verif Require Import Base BaseLemmas ModelPvrtc SpecImage SpecPvrtc.

(** The interleaved low [i] bits. *)
Fixpoint inter (i : nat) (x y : Z) : Z :=
  match i with
  | O => 0
  | S i => inter i x y + 4 ^ Z.of_nat i * (y / 2 ^ Z.of_nat i mod 2 + 2 * (x / 2 ^ Z.of_nat i mod 2))
  end.

Lemma inter_bound i x y : 0 <= inter i x y < 4 ^ Z.of_nat i.
Proof.
  induction i as [|i IH]; cbn [inter]; [lia|]. rewrite Nat2Z.inj_succ, Z.pow_succ_r by lia.
  pose proof (Z.mod_pos_bound (y / 2 ^ Z.of_nat i) 2 ltac:(lia)).
  pose proof (Z.mod_pos_bound (x / 2 ^ Z.of_nat i) 2 ltac:(lia)). nia.
Qed.

Lemma inter_shift i x y : inter (S i) x y = y mod 2 + 2 * (x mod 2) + 4 * inter i (x / 2) (y / 2).
Proof.
  revert x y. induction i as [|i IH]; intros x y.
  - cbn [inter Z.of_nat Z.pow]. change (4 ^ 0) with 1. change (2 ^ 0) with 1. rewrite !Z.div_1_r. lia.
  - cbn [inter] in *. rewrite IH. rewrite Nat2Z.inj_succ, !Z.pow_succ_r by lia.
    rewrite <- !Z.div_div by lia. ring.
Qed.

Lemma morton_inter k x y : morton k x y = inter k x y + 4 ^ Z.of_nat k * (x / 2 ^ Z.of_nat k + y / 2 ^ Z.of_nat k).
Proof.
  revert x y. induction k as [|k IH]; intros x y.
  - cbn [morton inter Z.of_nat]. change (4 ^ 0) with 1. change (2 ^ 0) with 1. rewrite !Z.div_1_r. lia.
  - rewrite inter_shift. cbn [morton]. rewrite IH. rewrite Nat2Z.inj_succ, !Z.pow_succ_r by lia.
    rewrite <- !Z.div_div by lia. ring.
Qed.

Lemma pow4_2 i : 0 <= i -> 4 ^ i = 2 ^ (i + i).
Proof. intros. rewrite Z.pow_add_r by lia. change 4 with (2 * 2). apply Z.pow_mul_l. Qed.

Lemma morton_loop_ok m k x y : (k <= 31)%nat -> forall d i fuel, (i + d = k)%nat -> (d < fuel)%nat ->
  morton_loop m fuel x y (2 ^ Z.of_nat k) (inter i x y) (Z.of_nat i) (2 ^ Z.of_nat i) = Ok (inter k x y, Z.of_nat k).
Proof.
  intros Hk. induction d as [|d IH]; intros i fuel Hi Hf.
  - destruct fuel as [|fuel]; [lia|]. cbn [morton_loop]. replace i with k by lia. rewrite Z.ltb_irrefl. reflexivity.
  - destruct fuel as [|fuel]; [lia|]. cbn [morton_loop].
    assert (2 ^ Z.of_nat i < 2 ^ Z.of_nat k) by (apply Z.pow_lt_mono_r; lia).
    destruct (Z.ltb_spec (2 ^ Z.of_nat i) (2 ^ Z.of_nat k)); [|lia].
    assert (0 < 2 ^ Z.of_nat i) by (apply Z.pow_pos_nonneg; lia).
    assert (2 ^ Z.of_nat k <= 2 ^ 31) by (apply Z.pow_le_mono_r; lia).
    rewrite !land_pow2 by lia.
    pose proof (Z.mod_pos_bound (y / 2 ^ Z.of_nat i) 2 ltac:(lia)) as By.
    pose proof (Z.mod_pos_bound (x / 2 ^ Z.of_nat i) 2 ltac:(lia)) as Bx.
    pose proof (inter_bound i x y) as BI.
    set (a := y / 2 ^ Z.of_nat i mod 2) in *. set (b := x / 2 ^ Z.of_nat i mod 2) in *.
    assert (2 ^ Z.of_nat i <= 2 ^ 30) by (apply Z.pow_le_mono_r; lia).
    rewrite ushl_ok by lia. cbn [bind]. rewrite (Z.mod_small (b * _ * 2 ^ 1)) by (change (2 ^ 1) with 2; nia).
    rewrite ushl_ok by lia. cbn [bind].
    assert (Z.lor (a * 2 ^ Z.of_nat i) (b * 2 ^ Z.of_nat i * 2 ^ 1) = (a + 2 * b) * 2 ^ Z.of_nat i) as ->.
    { clear - By Bx. assert (a = 0 \/ a = 1) as [-> | ->] by lia; assert (b = 0 \/ b = 1) as [-> | ->] by lia;
        rewrite ?Z.mul_0_l, ?Z.mul_1_l, ?Z.lor_0_l, ?Z.lor_0_r; try (change (2 ^ 1) with 2; ring).
      rewrite Z.lor_comm. replace (2 ^ Z.of_nat i * 2 ^ 1) with (1 * 2 ^ (Z.of_nat i + 1)) by (rewrite Z.pow_add_r by lia; ring).
      rewrite lor_add; rewrite ?Z.pow_add_r by lia; pose proof (Z.pow_pos_nonneg 2 (Z.of_nat i)); change (2 ^ 1) with 2; lia. }
    assert (4 ^ Z.of_nat i = 2 ^ Z.of_nat i * 2 ^ Z.of_nat i) as E4 by (rewrite pow4_2, Z.pow_add_r by lia; reflexivity).
    assert (2 ^ Z.of_nat i * 2 ^ Z.of_nat i <= 2 ^ 30 * 2 ^ 30) by (apply Z.mul_le_mono_nonneg; lia).
    assert ((a + 2 * b) * 2 ^ Z.of_nat i * 2 ^ Z.of_nat i = (a + 2 * b) * 2 ^ (Z.of_nat i + Z.of_nat i)) as ->
      by (rewrite Z.pow_add_r by lia; ring).
    rewrite (Z.mod_small ((a + 2 * b) * _)).
    2:{ rewrite Z.pow_add_r by lia. split; [apply Z.mul_nonneg_nonneg; lia|]. 
        apply Z.le_lt_trans with (3 * (2 ^ 30 * 2 ^ 30)); [apply Z.mul_le_mono_nonneg; lia|reflexivity]. }
    rewrite lor_comm_add by (rewrite <- ?pow4_2 by lia; lia).
    rewrite ushl_ok by lia. cbn [bind]. rewrite ua_ok by lia. cbn [bind].
    rewrite (Z.mod_small (2 ^ Z.of_nat i * 2 ^ 1)) by (change (2 ^ 1) with 2; lia).
    replace (2 ^ Z.of_nat i * 2 ^ 1) with (2 ^ Z.of_nat (S i)) by (rewrite Nat2Z.inj_succ, Z.pow_succ_r by lia; change (2 ^ 1) with 2; ring).
    replace (Z.of_nat i + 1) with (Z.of_nat (S i)) by lia.
    replace (inter i x y + (a + 2 * b) * 2 ^ (Z.of_nat i + Z.of_nat i)) with (inter (S i) x y)
      by (cbn [inter]; fold a b; rewrite pow4_2 by lia; ring).
    apply IH; lia.
Qed.

(** Grid of 2^p x 2^q blocks; the index fits as there are fewer than 2^62 of them. *)
Lemma morton_index_ok m p q x y : 0 <= p -> 0 <= q -> p + q <= 62 -> 0 <= x < 2 ^ p -> 0 <= y < 2 ^ q ->
  morton_index m x y (2 ^ Z.min p q) = Ok (morton (Z.to_nat (Z.min p q)) x y).
Proof.
  intros Hp Hq Hpq Hx Hy. unfold morton_index.
  set (k := Z.to_nat (Z.min p q)). assert (Z.min p q = Z.of_nat k) as Ek by (unfold k; lia). rewrite Ek.
  assert (k <= 31)%nat by lia.
  pose proof (morton_loop_ok m k x y ltac:(lia) k 0%nat 65%nat ltac:(lia) ltac:(lia)) as L.
  cbn [inter Z.of_nat] in L. change (2 ^ 0) with 1 in L. rewrite L. cbn [bind]. clear L.
  rewrite ushr_ok by lia. cbn [bind]. rewrite ua_ok by lia. cbn [bind]. rewrite ushl_ok by lia. cbn [bind].
  apply (f_equal Ok). rewrite morton_inter.
  set (n := Z.of_nat k) in *. assert (0 < 2 ^ n) by (apply Z.pow_pos_nonneg; lia).
  assert (Z.lor x y / 2 ^ n = x / 2 ^ n + y / 2 ^ n) as ->.
  { rewrite <- !Z.shiftr_div_pow2, Z.shiftr_lor, !Z.shiftr_div_pow2 by lia.
    destruct (Z.le_gt_cases p q).
    - rewrite (Z.div_small x) by (replace n with p by lia; lia). apply Z.lor_0_l.
    - rewrite (Z.div_small y) by (replace n with q by lia; lia). rewrite Z.lor_0_r. lia. }
  pose proof (inter_bound k x y) as B. fold n in B. rewrite pow4_2 in * by lia.
  replace (n * 2) with (n + n) by lia.
  set (v := x / 2 ^ n + y / 2 ^ n). 
  assert (0 <= v * 2 ^ (n + n) < 2 ^ 64) as V.
  { assert (0 <= x / 2 ^ n < 2 ^ (p - n)) by (split; [apply Z.div_pos; lia|apply Z.div_lt_upper_bound; [lia|rewrite <- Z.pow_add_r by lia; replace (n + (p - n)) with p by lia; lia]]).
    assert (0 <= y / 2 ^ n < 2 ^ (q - n)) by (split; [apply Z.div_pos; lia|apply Z.div_lt_upper_bound; [lia|rewrite <- Z.pow_add_r by lia; replace (n + (q - n)) with q by lia; lia]]).
    assert (0 <= v < 2 * 2 ^ (p + q - n - n)).
    { unfold v. assert (2 ^ (p - n) <= 2 ^ (p + q - n - n)) by (apply Z.pow_le_mono_r; lia).
      assert (2 ^ (q - n) <= 2 ^ (p + q - n - n)) by (apply Z.pow_le_mono_r; lia). lia. }
    assert (0 < 2 ^ (n + n)) by (apply Z.pow_pos_nonneg; lia).
    split; [apply Z.mul_nonneg_nonneg; lia|].
    apply Z.lt_le_trans with (2 * 2 ^ (p + q - n - n) * 2 ^ (n + n)); [apply Z.mul_lt_mono_pos_r; lia|].
    rewrite <- Z.mul_assoc, <- Z.pow_add_r by lia. replace (p + q - n - n + (n + n)) with (p + q) by lia.
    assert (2 ^ (p + q) <= 2 ^ 62) by (apply Z.pow_le_mono_r; lia). lia. }
  rewrite (Z.mod_small (v * _)) by exact V.
  rewrite lor_comm_add by lia. ring.
Qed.

(** The address is a bijection. *)
Lemma pow_half p : 0 < p -> 2 ^ p = 2 * 2 ^ (p - 1).
Proof. intros. rewrite <- Z.pow_succ_r by lia. f_equal; lia. Qed.

Lemma morton_range k p q x y : Z.of_nat k = Z.min p q -> 0 <= x < 2 ^ p -> 0 <= y < 2 ^ q ->
  0 <= morton k x y < 2 ^ p * 2 ^ q.
Proof.
  revert p q x y. induction k as [|k IH]; intros p q x y Hk Hx Hy; cbn [morton].
  - assert (p = 0 \/ q = 0) as [-> | ->] by lia; change (2 ^ 0) with 1 in *; lia.
  - rewrite (pow_half p), (pow_half q) in * by lia.
    assert (0 <= x / 2 < 2 ^ (p - 1)) by dlia. assert (0 <= y / 2 < 2 ^ (q - 1)) by dlia.
    specialize (IH (p - 1) (q - 1) (x / 2) (y / 2) ltac:(lia) ltac:(lia) ltac:(lia)).
    pose proof (Z.mod_pos_bound x 2). pose proof (Z.mod_pos_bound y 2). lia.
Qed.

Lemma morton_surj k p q n : Z.of_nat k = Z.min p q -> 0 <= n < 2 ^ p * 2 ^ q ->
  exists x y, 0 <= x < 2 ^ p /\ 0 <= y < 2 ^ q /\ morton k x y = n.
Proof.
  revert p q n. induction k as [|k IH]; intros p q n Hk Hn; cbn [morton].
  - assert (p = 0 \/ q = 0) as [-> | ->] by lia; change (2 ^ 0) with 1 in *; [exists 0, n|exists n, 0]; lia.
  - rewrite (pow_half p), (pow_half q) in * by lia.
    destruct (IH (p - 1) (q - 1) (n / 4)) as (x & y & Hx & Hy & E); [lia| |].
    { split; [apply Z.div_pos; lia|]. apply Z.div_lt_upper_bound; lia. }
    exists (2 * x + n / 2 mod 2), (2 * y + n mod 2).
    pose proof (Z.mod_pos_bound (n / 2) 2 ltac:(lia)). pose proof (Z.mod_pos_bound n 2 ltac:(lia)).
    split; [lia|]. split; [lia|].
    replace ((2 * x + n / 2 mod 2) / 2) with x by (apply Z.div_unique with (n / 2 mod 2); lia).
    replace ((2 * y + n mod 2) / 2) with y by (apply Z.div_unique with (n mod 2); lia).
    replace ((2 * x + n / 2 mod 2) mod 2) with (n / 2 mod 2) by (apply Z.mod_unique with x; lia).
    replace ((2 * y + n mod 2) mod 2) with (n mod 2) by (apply Z.mod_unique with y; lia).
    rewrite E. pose proof (Z.div_mod n 2 ltac:(lia)). pose proof (Z.div_mod (n / 2) 2 ltac:(lia)).
    rewrite Z.div_div in * by lia. change (2 * 2) with 4 in *. lia.
Qed.

Lemma morton_inj k p q x y x' y' : Z.of_nat k = Z.min p q ->
  0 <= x < 2 ^ p -> 0 <= y < 2 ^ q -> 0 <= x' < 2 ^ p -> 0 <= y' < 2 ^ q ->
  morton k x y = morton k x' y' -> x = x' /\ y = y'.
Proof.
  revert p q x y x' y'. induction k as [|k IH]; intros p q x y x' y' Hk Hx Hy Hx' Hy' E; cbn [morton] in E.
  - assert (p = 0 \/ q = 0) as [-> | ->] by lia; change (2 ^ 0) with 1 in *; lia.
  - rewrite (pow_half p), (pow_half q) in * by lia.
    pose proof (Z.mod_pos_bound x 2 ltac:(lia)). pose proof (Z.mod_pos_bound y 2 ltac:(lia)).
    pose proof (Z.mod_pos_bound x' 2 ltac:(lia)). pose proof (Z.mod_pos_bound y' 2 ltac:(lia)).
    pose proof (Z.div_mod x 2 ltac:(lia)). pose proof (Z.div_mod y 2 ltac:(lia)).
    pose proof (Z.div_mod x' 2 ltac:(lia)). pose proof (Z.div_mod y' 2 ltac:(lia)).
    assert (morton k (x / 2) (y / 2) = morton k (x' / 2) (y' / 2)) as E' by lia.
    apply (IH (p - 1) (q - 1)) in E'; lia.
Qed.

(** Bit by bit. *)
Lemma morton_bits k x y i : (i < k)%nat -> 0 <= x -> 0 <= y ->
  morton k x y / 4 ^ Z.of_nat i mod 4 = y / 2 ^ Z.of_nat i mod 2 + 2 * (x / 2 ^ Z.of_nat i mod 2).
Proof.
  revert k x y. induction i as [|i IH]; intros k x y Hi Hx Hy; (destruct k as [|k]; [lia|]); cbn [morton].
  - cbn [Z.of_nat]. change (4 ^ 0) with 1. change (2 ^ 0) with 1. rewrite !Z.div_1_r.
    pose proof (Z.mod_pos_bound x 2 ltac:(lia)). pose proof (Z.mod_pos_bound y 2 ltac:(lia)).
    symmetry. apply Z.mod_unique with (morton k (x / 2) (y / 2)); lia.
  - rewrite Nat2Z.inj_succ, !Z.pow_succ_r by lia. rewrite <- !Z.div_div by lia.
    rewrite <- (IH k (x / 2) (y / 2)) by (try lia; apply Z.div_pos; lia).
    do 2 f_equal. pose proof (Z.mod_pos_bound x 2 ltac:(lia)). pose proof (Z.mod_pos_bound y 2 ltac:(lia)).
    symmetry. apply Z.div_unique with (y mod 2 + 2 * (x mod 2)); lia.
Qed.
