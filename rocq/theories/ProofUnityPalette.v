(** * Proofs about the palettes of Unity crunch files. *)
From Verif Require Import Base BaseLemmas ModelCrn ModelCrunch ModelUnity SpecCrn SpecCrnHeader SpecCrnLevel SpecCrnFile SpecUnityFile
  ProofHuff ProofCrnBits ProofCrnRead ProofAstcRange ProofCrnGrid ProofCrnLevel ProofCrnModel ProofCrnPalette ProofCrnFile ProofCrnWhole ProofUnityLevel.

(** ** Numbers as digits *)
Lemma digits_testbit b n g j : 0 < b -> 0 <= n -> (forall k, 0 <= k < n -> 0 <= g k < 2 ^ b) -> 0 <= j ->
  Z.testbit (digits (2 ^ b) n g) j = (j <? b * n) && Z.testbit (g (j / b)) (j mod b).
Proof.
  intros Hb Hn. revert j. pattern n. apply natlike_ind; [| |exact Hn]; clear n Hn.
  - intros j _ Hj. unfold digits. rewrite zsum_0, Z.testbit_0_l. destruct (Z.ltb_spec j (b * 0)); [lia|reflexivity].
  - intros n Hn IH j Hg Hj. specialize (IH j ltac:(intros; apply Hg; lia) Hj).
    pose proof (digits_bound (2 ^ b) n g Hn ltac:(apply Z.pow_pos_nonneg; lia) ltac:(intros; apply Hg; lia)) as R.
    unfold digits, Z.succ in *. rewrite zsum_snoc by lia. rewrite <- Z.pow_mul_r in * by lia.
    rewrite <- lor_comm_add by lia. rewrite Z.lor_spec, IH. rewrite <- shl_mul by lia. rewrite Z.shiftl_spec by lia.
    destruct (Z.ltb_spec j (b * n)) as [H1|H1].
    + destruct (Z.ltb_spec j (b * (n + 1))); [|lia]. cbn [andb]. rewrite (Z.testbit_neg_r (g n)) by lia. apply orb_false_r.
    + cbn [andb orb]. destruct (Z.ltb_spec j (b * (n + 1))) as [H2|H2]; cbn [andb].
      * assert (j / b = n) as -> by (symmetry; apply Z.div_unique with (j - b * n); lia).
        assert (j mod b = j - b * n) as -> by (symmetry; apply Z.mod_unique with n; lia). reflexivity.
      * destruct (Hg n ltac:(lia)) as [G1 G2]. destruct (Z.eq_dec (g n) 0) as [->|]; [apply Z.testbit_0_l|].
        apply Z.bits_above_log2; [lia|]. apply Z.log2_lt_pow2 in G2; lia.
Qed.
Lemma small_testbit b x j : 0 <= b -> 0 <= x < 2 ^ b -> b <= j -> Z.testbit x j = false.
Proof.
  intros Hb [H1 H2] Hj. destruct (Z.eq_dec x 0) as [->|]; [apply Z.testbit_0_l|].
  apply Z.bits_above_log2; [lia|]. apply Z.log2_lt_pow2 in H2; lia.
Qed.
Lemma small_of_bits b x : 0 <= b -> 0 <= x -> (forall j, b <= j -> Z.testbit x j = false) -> x < 2 ^ b.
Proof.
  intros Hb Hx Hj. destruct (Z.eq_dec x 0) as [->|]; [apply Z.pow_pos_nonneg; lia|].
  apply Z.log2_lt_pow2; [lia|]. destruct (Z.lt_ge_cases (Z.log2 x) b) as [|G]; [assumption|]. specialize (Hj _ G). rewrite Z.bit_log2 in Hj by lia. discriminate.
Qed.
Lemma lxor_small b x y : 0 <= b -> 0 <= x < 2 ^ b -> 0 <= y < 2 ^ b -> 0 <= Z.lxor x y < 2 ^ b.
Proof.
  intros Hb Hx Hy. assert (0 <= Z.lxor x y) by (apply Z.lxor_nonneg; lia). split; [lia|]. apply small_of_bits; [lia|lia|].
  intros j Hj. rewrite Z.lxor_spec, (small_testbit b x), (small_testbit b y) by lia. reflexivity.
Qed.
Lemma lor_small b x y : 0 <= b -> 0 <= x < 2 ^ b -> 0 <= y < 2 ^ b -> 0 <= Z.lor x y < 2 ^ b.
Proof.
  intros Hb Hx Hy. assert (0 <= Z.lor x y) by (apply Z.lor_nonneg; lia). split; [lia|]. apply small_of_bits; [lia|lia|].
  intros j Hj. rewrite Z.lor_spec, (small_testbit b x), (small_testbit b y) by lia. reflexivity.
Qed.
Lemma digits_ext b n f g : (forall k, 0 <= k < n -> f k = g k) -> digits b n f = digits b n g.
Proof. intros H. unfold digits, zsum. f_equal. apply map_ext_in. intros k Hk. apply in_zrange in Hk. rewrite H by lia. reflexivity. Qed.

(** Changing one digit. *)
Lemma digits_put (op : Z -> Z -> Z) (ob : bool -> bool -> bool) b n g j x : (forall x y i, Z.testbit (op x y) i = ob (Z.testbit x i) (Z.testbit y i)) ->
  (forall x, ob x false = x) -> (forall x y, 0 <= x < 2 ^ b -> 0 <= y < 2 ^ b -> 0 <= op x y < 2 ^ b) ->
  0 < b -> 0 <= j < n -> (forall k, 0 <= k < n -> 0 <= g k < 2 ^ b) -> 0 <= x < 2 ^ b ->
  op (digits (2 ^ b) n g) (x * 2 ^ (b * j)) = digits (2 ^ b) n (fun k => if k =? j then op (g k) x else g k).
Proof.
  intros Hop Hz Hr Hb Hj Hg Hx. apply Z.bits_inj'. intros i Hi. rewrite Hop. rewrite digits_testbit by (auto; lia).
  rewrite digits_testbit; [|lia|lia| |lia].
  2: { intros k Hk. destruct (k =? j); [apply Hr; auto|apply Hg; lia]. }
  rewrite <- shl_mul by lia. rewrite Z.shiftl_spec by lia.
  pose proof (Z.div_mod i b ltac:(lia)) as DM. pose proof (Z.mod_pos_bound i b ltac:(lia)) as MB.
  destruct (Z.eqb_spec (i / b) j) as [E|E].
  - assert (i < b * n) by nia. destruct (Z.ltb_spec i (b * n)); [|lia]. cbn [andb]. rewrite Hop, E. do 2 f_equal. nia.
  - replace (Z.testbit x (i - b * j)) with false; [apply Hz|]. symmetry. destruct (Z.lt_ge_cases (i - b * j) 0); [apply Z.testbit_neg_r; lia|].
    apply (small_testbit b); [lia|exact Hx|]. assert (j < i / b) by nia. nia.
Qed.
Lemma digits_lxor b n g j x : 0 < b -> 0 <= j < n -> (forall k, 0 <= k < n -> 0 <= g k < 2 ^ b) -> 0 <= x < 2 ^ b ->
  Z.lxor (digits (2 ^ b) n g) (x * 2 ^ (b * j)) = digits (2 ^ b) n (fun k => if k =? j then Z.lxor (g k) x else g k).
Proof.
  intros Hb. apply (digits_put Z.lxor xorb); auto; [intros; apply Z.lxor_spec|intros []; reflexivity|].
  intros; apply lxor_small; lia.
Qed.
Lemma digits_lor b n g j x : 0 < b -> 0 <= j < n -> (forall k, 0 <= k < n -> 0 <= g k < 2 ^ b) -> 0 <= x < 2 ^ b ->
  Z.lor (digits (2 ^ b) n g) (x * 2 ^ (b * j)) = digits (2 ^ b) n (fun k => if k =? j then Z.lor (g k) x else g k).
Proof.
  intros Hb. apply (digits_put Z.lor orb); auto; [intros; apply Z.lor_spec|intros []; reflexivity|].
  intros; apply lor_small; lia.
Qed.
(** Digits of a number. *)
Lemma digits_nth b n g k : 0 < b -> 0 <= k < n -> (forall k, 0 <= k < n -> 0 <= g k < 2 ^ b) ->
  digits (2 ^ b) n g / 2 ^ (b * k) mod 2 ^ b = g k.
Proof.
  intros Hb Hk Hg. apply Z.bits_inj'. intros i Hi. rewrite <- shr_div by lia.
  destruct (Z.lt_ge_cases i b) as [L|L].
  - rewrite Z.mod_pow2_bits_low by lia. rewrite Z.shiftr_spec by lia. rewrite digits_testbit by (auto; lia).
    assert ((i + b * k) / b = k) as -> by (symmetry; apply Z.div_unique with i; lia).
    assert ((i + b * k) mod b = i) as -> by (symmetry; apply Z.mod_unique with k; lia).
    destruct (Z.ltb_spec (i + b * k) (b * n)); [reflexivity|nia].
  - rewrite Z.mod_pow2_bits_high by lia. symmetry. apply (small_testbit b); [lia|apply Hg; lia|lia].
Qed.
(** Each digit as two digits. *)
Lemma digits_split b n g : 0 < b -> 0 <= n -> (forall j, 0 <= j < n -> 0 <= g j < 2 ^ (2 * b)) ->
  digits (2 ^ (2 * b)) n g = digits (2 ^ b) (2 * n) (fun k => g (k / 2) / (2 ^ b) ^ (k mod 2) mod 2 ^ b).
Proof.
  intros Hb Hn Hg. apply Z.bits_inj'. intros i Hi. rewrite digits_testbit by (auto; lia). rewrite digits_testbit; [|lia|lia| |lia].
  2: { intros. apply Z.mod_pos_bound. apply Z.pow_pos_nonneg; lia. }
  replace (b * (2 * n)) with (2 * b * n) by ring. f_equal. pose proof (Z.mod_pos_bound (i / b) 2 ltac:(lia)) as M2. pose proof (Z.mod_pos_bound i b ltac:(lia)) as MB.
  rewrite <- Z.pow_mul_r by lia. rewrite <- shr_div by nia. rewrite Z.mod_pow2_bits_low by lia. rewrite Z.shiftr_spec by lia.
  replace (i / b / 2) with (i / (2 * b)) by (rewrite Z.div_div by lia; f_equal; lia). f_equal.
  pose proof (Z.div_mod i b ltac:(lia)). pose proof (Z.div_mod (i / b) 2 ltac:(lia)). pose proof (Z.div_mod i (2 * b) ltac:(lia)).
  rewrite (Z.mul_comm 2 b) in *. rewrite <- Z.div_div in * by lia. nia.
Qed.

(** ** Values mixed by exclusive or *)
Lemma mixed_neg d : mixed (-1) d = 0.
Proof. reflexivity. Qed.
Lemma fold_lxor l x : fold_right Z.lxor x l = Z.lxor (fold_right Z.lxor 0 l) x.
Proof. induction l as [|a l IH]; cbn [fold_right]; [rewrite Z.lxor_0_l; reflexivity|]. rewrite IH, Z.lxor_assoc. reflexivity. Qed.
Lemma mixed_next i d : 0 <= i -> mixed i d = Z.lxor (mixed (i - 1) d) (d i).
Proof.
  intros Hi. unfold mixed. rewrite Z.sub_add. rewrite zrange_snoc, map_app, fold_right_app by lia. cbn [map fold_right]. rewrite Z.lxor_0_r. apply fold_lxor.
Qed.
Lemma mixed_range b i d : 0 <= b -> -1 <= i -> (forall i, 0 <= d i < 2 ^ b) -> 0 <= mixed i d < 2 ^ b.
Proof.
  intros Hb Hi Hd. replace i with ((i + 1) - 1) by lia. assert (0 <= i + 1) as H by lia. revert H. generalize (i + 1). clear i Hi. intros i Hi.
  pattern i. apply natlike_ind; [| |exact Hi].
  - rewrite mixed_neg. split; [lia|]. apply Z.pow_pos_nonneg; lia.
  - intros n Hn IH. rewrite mixed_next by lia. apply lxor_small; auto. replace (Z.succ n - 1 - 1) with (n - 1) by lia. exact IH.
Qed.
Lemma mixed_part b d i k : 0 < b -> -1 <= i -> 0 <= k ->
  mixed_value (2 ^ b) d i k = mixed i (fun i' => d i' (k / 2)) / (2 ^ b) ^ (k mod 2) mod 2 ^ b.
Proof.
  intros Hb Hi Hk. unfold mixed_value. pose proof (Z.mod_pos_bound k 2 ltac:(lia)). set (e := k mod 2) in *. rewrite <- !Z.pow_mul_r by lia.
  replace i with ((i + 1) - 1) by lia. assert (0 <= i + 1) as H' by lia. revert H'. generalize (i + 1). clear i Hi. intros i Hi.
  pattern i. apply natlike_ind; [| |exact Hi].
  - rewrite !mixed_neg. rewrite Z.div_0_l by (apply Z.pow_nonzero; lia). rewrite Z.mod_0_l by (apply Z.pow_nonzero; lia). reflexivity.
  - intros n Hn IH. rewrite !(mixed_next (Z.succ n - 1)) by lia. replace (Z.succ n - 1 - 1) with (n - 1) by lia. rewrite IH.
    rewrite <- !shr_div by nia. apply Z.bits_inj'. intros j Hj. rewrite Z.lxor_spec.
    destruct (Z.lt_ge_cases j b); [rewrite !Z.mod_pow2_bits_low, !Z.shiftr_spec by lia; rewrite Z.lxor_spec; reflexivity|rewrite !Z.mod_pow2_bits_high by lia; reflexivity].
Qed.
Lemma mixed_value_range b d i k : 0 < b -> -1 <= i -> 0 <= k -> 0 <= mixed_value (2 ^ b) d i k < 2 ^ b.
Proof. intros. rewrite mixed_part by lia. apply Z.mod_pos_bound. apply Z.pow_pos_nonneg; lia. Qed.
(** All values of an entry in one number. *)
Lemma mixed_digits b d i n : 0 < b -> -1 <= i -> 0 <= n -> (forall i j, 0 <= d i j < 2 ^ (2 * b)) ->
  digits (2 ^ (2 * b)) n (fun j => mixed i (fun i' => d i' j)) = digits (2 ^ b) (2 * n) (mixed_value (2 ^ b) d i).
Proof.
  intros Hb Hi Hn Hd. rewrite digits_split; [|lia|lia|intros; apply mixed_range; auto; lia].
  apply digits_ext. intros k Hk. rewrite mixed_part by lia. reflexivity.
Qed.

Lemma digits_zip (op : Z -> Z -> Z) (ob : bool -> bool -> bool) b n f g : (forall x y i, Z.testbit (op x y) i = ob (Z.testbit x i) (Z.testbit y i)) ->
  ob false false = false -> (forall x y, 0 <= x < 2 ^ b -> 0 <= y < 2 ^ b -> 0 <= op x y < 2 ^ b) ->
  0 < b -> 0 <= n -> (forall k, 0 <= k < n -> 0 <= f k < 2 ^ b) -> (forall k, 0 <= k < n -> 0 <= g k < 2 ^ b) ->
  op (digits (2 ^ b) n f) (digits (2 ^ b) n g) = digits (2 ^ b) n (fun k => op (f k) (g k)).
Proof.
  intros Hop Hz Hr Hb Hn Hf Hg. apply Z.bits_inj'. intros i Hi. rewrite Hop. rewrite !digits_testbit by (auto; lia).
  destruct (i <? b * n); cbn [andb]; [symmetry; apply Hop|exact Hz].
Qed.
Lemma land_small b x y : 0 <= b -> 0 <= x < 2 ^ b -> 0 <= y < 2 ^ b -> 0 <= Z.land x y < 2 ^ b.
Proof.
  intros Hb Hx Hy. assert (0 <= Z.land x y) by (apply Z.land_nonneg; lia). split; [lia|]. apply small_of_bits; [lia|lia|].
  intros j Hj. rewrite Z.land_spec, (small_testbit b x) by lia. reflexivity.
Qed.
Lemma digits_land b n f g : 0 < b -> 0 <= n -> (forall k, 0 <= k < n -> 0 <= f k < 2 ^ b) -> (forall k, 0 <= k < n -> 0 <= g k < 2 ^ b) ->
  Z.land (digits (2 ^ b) n f) (digits (2 ^ b) n g) = digits (2 ^ b) n (fun k => Z.land (f k) (g k)).
Proof. intros Hb. apply (digits_zip Z.land andb); auto; [intros; apply Z.land_spec|]. intros; apply land_small; lia. Qed.

Lemma digits_4 g : digits 256 4 g = g 0 + 256 * g 1 + 65536 * g 2 + 16777216 * g 3.
Proof. unfold digits, zsum. change (zrange 0 4) with [0; 1; 2; 3]. cbn [map sum fold_right]. unfold sum. cbn [fold_right]. change (256 ^ 0) with 1. change (256 ^ 1) with 256. change (256 ^ 2) with 65536. change (256 ^ 3) with 16777216. ring. Qed.

Lemma etc_mask v : (forall k, 0 <= k < 4 -> 0 <= v k < 256) -> Z.land (digits 256 4 v) 0x1F1F1F1F = digits 256 4 (fun k => v k mod 32).
Proof.
  intros H. change 0x1F1F1F1F with (digits (2 ^ 8) 4 (fun _ => 31)). change 256 with (2 ^ 8). rewrite digits_land; [|lia|lia|exact H|intros; lia].
  apply digits_ext. intros k Hk. change 31 with (2 ^ 5 - 1). apply land_mask. lia.
Qed.
Lemma etc_plain_end v : (forall k, 0 <= k < 4 -> 0 <= v k < 32) ->
  Z.lor (Z.lor (Z.lor (u32 (Z.shiftl (Z.land (digits 256 4 v) 0x07000000) 5)) (u32 (Z.shiftl (Z.land (digits 256 4 v) 0x07000000) 2))) 0x02000000)
    (u32 (Z.shiftl (Z.land (digits 256 4 v) 0x001F1F1F) 3)) =
  digits 256 4 (fun k => if k <? 3 then 8 * v k else 32 * (v 3 mod 8) + 4 * (v 3 mod 8) + 2).
Proof.
  intros H. change 256 with (2 ^ 8). change 0x07000000 with (digits (2 ^ 8) 4 (fun k => if k =? 3 then 7 else 0)). change 0x001F1F1F with (digits (2 ^ 8) 4 (fun k => if k =? 3 then 0 else 31)).
  assert (forall k, 0 <= k < 4 -> 0 <= v k < 2 ^ 8) as R by (intros k Hk; specialize (H k Hk); lia).
  rewrite !digits_land; [|lia|lia|exact R|intros k Hk; destruct (k =? 3); lia|lia|lia|exact R|intros k Hk; destruct (k =? 3); lia].
  rewrite (digits_ext (2 ^ 8) 4 (fun k => Z.land (v k) (if k =? 3 then 7 else 0)) (fun k => if k =? 3 then v k mod 8 else 0)).
  2: { intros k Hk. destruct (k =? 3); [change 7 with (2 ^ 3 - 1); apply land_mask; lia|apply Z.land_0_r]. }
  rewrite (digits_ext (2 ^ 8) 4 (fun k => Z.land (v k) (if k =? 3 then 0 else 31)) (fun k => if k =? 3 then 0 else v k)).
  2: { intros k Hk. destruct (k =? 3); [apply Z.land_0_r|]. change 31 with (2 ^ 5 - 1). rewrite land_mask by lia. apply Z.mod_small. apply H. lia. }
  change (2 ^ 8) with 256. rewrite !digits_4. cbn [Z.eqb Pos.eqb Z.ltb Z.compare Pos.compare Pos.compare_cont].
  pose proof (H 0 ltac:(lia)). pose proof (H 1 ltac:(lia)). pose proof (H 2 ltac:(lia)). pose proof (Z.mod_pos_bound (v 3) 8 ltac:(lia)).
  generalize dependent (v 3 mod 8). generalize dependent (v 0). generalize dependent (v 1). generalize dependent (v 2). clear. intros a Ha b Hb c Hc t Ht.
  rewrite !shl_mul by lia. unfold u32. change (2 ^ 32) with 4294967296. rewrite !Z.mod_small by lia.
  rewrite (lor_add' t ((0 + 256 * 0 + 65536 * 0 + 16777216 * t) * 2 ^ 2) ((0 + 256 * 0 + 65536 * 0 + 16777216 * t) * 2 ^ 5) 29) by lia.
  rewrite (lor_add' (9 * t) 33554432 _ 26) by lia. rewrite (lor_add' (36 * t + 2) _ _ 24) by lia. lia.
Qed.


(** The values as selectors of the block formats. *)
Lemma cases4 x : 0 <= x < 4 -> x = 0 \/ x = 1 \/ x = 2 \/ x = 3.
Proof. lia. Qed.
Lemma etc_code_range v : 0 <= znth etc_color_code v < 4.
Proof. unfold znth. destruct (Z.to_nat v) as [|[|[|[|k]]]]; cbn; try lia. destruct k; lia. Qed.

Lemma two_bits_range s v : s = digits 4 16 v -> (forall k, 0 <= k < 16 -> 0 <= v k < 4) -> 0 <= s < 2 ^ 32.
Proof. intros -> H. apply (digits_bound 4 16 v); [lia|lia|exact H]. Qed.
Lemma two_bits s v j : s = digits 4 16 v -> (forall k, 0 <= k < 16 -> 0 <= v k < 4) -> 0 <= j ->
  Z.testbit s j = (j <? 32) && Z.testbit (v (j / 2)) (j mod 2).
Proof. intros -> H Hj. change 4 with (2 ^ 2) at 1. rewrite digits_testbit by (auto; lia). reflexivity. Qed.
Lemma ones_minus s j : 0 <= s < 2 ^ 32 -> 0 <= j -> Z.testbit (2 ^ 32 - 1 - s) j = (j <? 32) && negb (Z.testbit s j).
Proof.
  intros Hs Hj. change (2 ^ 32 - 1) with (Z.ones 32). rewrite Z.sub_nocarry_ldiff.
  - rewrite Z.ldiff_spec. f_equal. destruct (Z.ltb_spec j 32); [apply Z.ones_spec_low; lia|apply Z.ones_spec_high; lia].
  - apply Z.bits_inj'. intros n Hn. rewrite Z.ldiff_spec, Z.bits_0. destruct (Z.lt_ge_cases n 32).
    + rewrite Z.ones_spec_low by lia. apply andb_false_r.
    + rewrite (small_testbit 32 s n) by lia. reflexivity.
Qed.
Lemma bit_of_mask c j : 0 <= c < 4 -> 0 <= j -> Z.testbit (digits 4 16 (fun _ => c)) j = (j <? 32) && Z.testbit c (j mod 2).
Proof. intros Hc Hj. apply (two_bits _ (fun _ => c)); auto. Qed.

Lemma dxt_selectors v : (forall k, 0 <= k < 16 -> 0 <= v k < 4) -> let s := digits 4 16 v in
  Z.lor (Z.land (Z.lxor s (u32 (Z.shiftl s 1))) 0xAAAAAAAA) (Z.land (Z.shiftr s 1) 0x55555555) =
  digits 4 16 (fun k => znth color_code (v k)).
Proof.
  intros Hv s. apply Z.bits_inj'. intros j Hj.
  change 0xAAAAAAAA with (digits 4 16 (fun _ => 2)). change 0x55555555 with (digits 4 16 (fun _ => 1)).
  rewrite Z.lor_spec, !Z.land_spec, Z.lxor_spec, !bit_of_mask, Z.shiftr_spec by lia.
  rewrite (two_bits (digits 4 16 (fun k => znth color_code (v k))) (fun k => znth color_code (v k)) j) by (auto; intros; apply color_code_range).
  destruct (Z.ltb_spec j 32) as [L|L]; cbn [andb]; [|rewrite !andb_false_r; reflexivity].
  unfold u32. rewrite Z.mod_pow2_bits_low by lia. rewrite Z.shiftl_spec by lia. specialize (Hv (j / 2) ltac:(dlia)) as R.
  rewrite (two_bits s v j), (two_bits s v (j + 1)) by (auto; lia).
  assert (j mod 2 = 0 \/ j mod 2 = 1) as [E|E] by dlia; rewrite E.
  - assert ((j + 1) / 2 = j / 2) as -> by dlia. assert ((j + 1) mod 2 = 1) as -> by dlia. destruct (Z.ltb_spec (j + 1) 32); [|dlia].
    destruct (cases4 _ R) as [->|[->|[->| ->]]]; destruct (j <? 32), (Z.testbit s (j - 1)); reflexivity.
  - assert ((j - 1) / 2 = j / 2) as E1 by dlia. assert ((j - 1) mod 2 = 0) as E2 by dlia. assert (0 <= j - 1) by dlia. rewrite (two_bits s v (j - 1)) by (auto; lia). rewrite E1, E2.
    destruct (Z.ltb_spec (j - 1) 32); [|lia]. destruct (Z.ltb_spec j 32); [|lia]. cbn [andb]. destruct ((j + 1 <? 32) && Z.testbit (v ((j + 1) / 2)) ((j + 1) mod 2));
    destruct (cases4 _ R) as [->|[->|[->| ->]]]; reflexivity.
Qed.
Lemma etc_selectors_code v : (forall k, 0 <= k < 16 -> 0 <= v k < 4) -> let s := digits 4 16 v in
  Z.lor (Z.land (2 ^ 32 - 1 - s) 0xAAAAAAAA) (Z.land (2 ^ 32 - 1 - Z.lxor s (Z.shiftr s 1)) 0x55555555) =
  digits 4 16 (fun k => znth etc_color_code (v k)).
Proof.
  intros Hv s. apply Z.bits_inj'. intros j Hj.
  assert (0 <= s < 2 ^ 32) as Rs by (apply (two_bits_range s v); auto).
  assert (0 <= Z.lxor s (Z.shiftr s 1) < 2 ^ 32) as Rx. { apply lxor_small; [lia|exact Rs|]. rewrite shr_div by lia. change (2 ^ 1) with 2. dlia. }
  change 0xAAAAAAAA with (digits 4 16 (fun _ => 2)). change 0x55555555 with (digits 4 16 (fun _ => 1)).
  rewrite Z.lor_spec, !Z.land_spec, !ones_minus, !bit_of_mask, Z.lxor_spec, Z.shiftr_spec by lia.
  rewrite (two_bits (digits 4 16 (fun k => znth etc_color_code (v k))) (fun k => znth etc_color_code (v k)) j) by (auto; intros; apply etc_code_range).
  destruct (Z.ltb_spec j 32) as [L|L]; cbn [andb]; [|reflexivity].
  specialize (Hv (j / 2) ltac:(dlia)) as R. rewrite (two_bits s v j), (two_bits s v (j + 1)) by (auto; lia).
  assert (j mod 2 = 0 \/ j mod 2 = 1) as [E|E] by dlia; rewrite E.
  - assert ((j + 1) / 2 = j / 2) as -> by dlia. assert ((j + 1) mod 2 = 1) as -> by dlia. destruct (Z.ltb_spec (j + 1) 32); [|dlia]. destruct (Z.ltb_spec j 32); [|lia].
    destruct (cases4 _ R) as [->|[->|[->| ->]]]; reflexivity.
  - destruct (Z.ltb_spec j 32); [|lia]. cbn [andb]. destruct ((j + 1 <? 32) && Z.testbit (v ((j + 1) / 2)) ((j + 1) mod 2));
    destruct (cases4 _ R) as [->|[->|[->| ->]]]; reflexivity.
Qed.

(** ** ETC colour selectors *)
(** The word after [T] texels (row by row) have been entered. *)
Definition texel_at (b : Z) : Z := (b mod 16 + 8) mod 16.
Definition etc_partial (g : Z -> Z) (T : Z) : Z :=
  digits 2 32 (fun b => if turned (texel_at b) <? T then (if b <? 16 then g (texel_at b) / 2 else g (texel_at b) mod 2) else 0).

Lemma turned_range k : 0 <= k < 16 -> 0 <= turned k < 16.
Proof. intros H. unfold turned. dlia. Qed.
Lemma turned_turned k : 0 <= k < 16 -> turned (turned k) = k.
Proof. intros H. unfold turned. dlia. Qed.
Lemma texel_range b : 0 <= texel_at b < 16.
Proof. apply Z.mod_pos_bound. lia. Qed.

Lemma etc_partial_step g h w : (forall k, 0 <= g k < 4) -> 0 <= h < 4 -> 0 <= w < 4 -> let p := (8 + h + 4 * w) mod 16 in let c := g (4 * w + h) in
  Z.lor (etc_partial g (4 * h + w)) (c / 2 * 2 ^ p + c mod 2 * 2 ^ (16 + p)) = etc_partial g (4 * h + w + 1).
Proof.
  intros Hg Hh Hw p c. pose proof (Hg (4 * w + h)) as Rc. fold c in Rc. assert (0 <= p < 16) as Rp by (apply Z.mod_pos_bound; lia).
  assert (0 <= c / 2 < 2) as R1 by dlia. assert (0 <= c mod 2 < 2) as R2 by dlia.
  rewrite <- lor_comm_add; [|lia|]. 2: { split; [apply Z.mul_nonneg_nonneg; [lia|apply Z.pow_nonneg; lia]|]. rewrite Z.pow_add_r by lia. assert (0 < 2 ^ p) by (apply Z.pow_pos_nonneg; lia). change (2 ^ 16) with 65536. nia. }
  rewrite Z.lor_assoc. unfold etc_partial. change 2 with (2 ^ 1) at 1. replace (2 ^ p) with (2 ^ (1 * p)) by (f_equal; lia). replace (2 ^ (16 + p)) with (2 ^ (1 * (16 + p))) by (f_equal; lia).
  assert (forall x b, 0 <= x < 4 -> 0 <= (if b <? 16 then x / 2 else x mod 2) < 2) as Rb by (intros x b Hx; destruct (b <? 16); dlia).
  rewrite digits_lor; [|lia|lia| |change (2 ^ 1) with 2; lia].
  2: { intros k Hk. change (2 ^ 1) with 2. destruct (_ <? _); [apply Rb, Hg|lia]. }
  rewrite digits_lor; [|lia|lia| |change (2 ^ 1) with 2; lia].
  2: { intros k Hk. assert (0 <= (if turned (texel_at k) <? 4 * h + w then if k <? 16 then g (texel_at k) / 2 else g (texel_at k) mod 2 else 0) < 2) by (destruct (_ <? _); [apply Rb, Hg|lia]).
       destruct (k =? p); [apply (lor_small 1); lia|change (2 ^ 1) with 2; lia]. }
  change (2 ^ 1) with 2. apply digits_ext. intros b Hb.
  assert (b mod 16 = p -> texel_at b = 4 * w + h) as TE. { intros E. unfold texel_at. rewrite E. unfold p. dlia. }
  assert (b mod 16 <> p -> turned (texel_at b) <> 4 * h + w) as TN.
  { intros E E2. apply E. assert (texel_at b = 4 * w + h) as E3. { rewrite <- (turned_turned (texel_at b)) by apply texel_range. rewrite E2. unfold turned. dlia. } unfold texel_at in E3. unfold p. dlia. }
  assert (turned (4 * w + h) = 4 * h + w) as TT by (unfold turned; dlia).
  destruct (Z.eqb_spec b (16 + p)) as [E|E].
  - assert (b mod 16 = p) as E' by dlia. rewrite (TE E'), TT. destruct (Z.ltb_spec (4 * h + w) (4 * h + w)); [lia|]. destruct (Z.ltb_spec (4 * h + w) (4 * h + w + 1)); [|lia].
    destruct (Z.ltb_spec b 16); [lia|]. destruct (Z.eqb_spec b p); [lia|]. reflexivity.
  - destruct (Z.eqb_spec b p) as [E0|E0].
    + assert (b mod 16 = p) as E' by dlia. rewrite (TE E'), TT. destruct (Z.ltb_spec (4 * h + w) (4 * h + w)); [lia|]. destruct (Z.ltb_spec (4 * h + w) (4 * h + w + 1)); [|lia].
      destruct (Z.ltb_spec b 16); [|lia]. reflexivity.
    + assert (b mod 16 <> p) as E' by dlia. specialize (TN E'). destruct (Z.ltb_spec (turned (texel_at b)) (4 * h + w)), (Z.ltb_spec (turned (texel_at b)) (4 * h + w + 1)); try lia; reflexivity.
Qed.
Lemma etc_partial_start g : etc_partial g 0 = 0.
Proof.
  unfold etc_partial. rewrite (digits_ext 2 32 _ (fun _ => 0)); [reflexivity|]. intros b Hb.
  pose proof (turned_range (texel_at b) (texel_range b)). destruct (Z.ltb_spec (turned (texel_at b)) 0); [lia|reflexivity].
Qed.
Lemma etc_partial_end g : (forall k, 0 <= g k < 4) -> etc_partial g 16 = etc_color_word g.
Proof.
  intros Hg. unfold etc_partial, etc_color_word. set (n := digits 2 32 (fun b => if b <? 16 then g b mod 2 else g (b - 16) / 2)).
  assert (forall x b, 0 <= x < 4 -> 0 <= (if b <? 16 then x / 2 else x mod 2) < 2) as Rb by (intros x b Hx; destruct (b <? 16); dlia).
  apply Z.bits_inj'. intros j Hj. change 256 with (2 ^ 8). change 2 with (2 ^ 1) at 1. rewrite !digits_testbit; try lia.
  2: { intros. apply Z.mod_pos_bound. lia. }
  2: { intros b Hb. change (2 ^ 1) with 2. destruct (_ <? _); [apply Rb, Hg|lia]. }
  change (1 * 32) with 32. change (8 * 4) with 32. destruct (Z.ltb_spec j 32) as [L|L]; cbn [andb]; [|reflexivity].
  rewrite Z.div_1_r, Z.mod_1_r. pose proof (turned_range (texel_at j) (texel_range j)). destruct (Z.ltb_spec (turned (texel_at j)) 16); [|lia].
  assert (0 <= j / 8 < 4) as J8 by dlia. assert (0 <= j mod 8 < 8) as J8' by dlia.
  rewrite Z.mod_pow2_bits_low by lia. rewrite <- Z.pow_mul_r by lia. rewrite <- shr_div by lia. rewrite Z.shiftr_spec by lia.
  unfold n. change (digits 2 32) with (digits (2 ^ 1) 32). rewrite digits_testbit; [|lia|lia| |lia].
  2: { intros b Hb. change (2 ^ 1) with 2. destruct (b <? 16); [pose proof (Hg b)|pose proof (Hg (b - 16))]; dlia. }
  change (1 * 32) with 32. set (q := j mod 8 + 8 * (3 - j / 8)). assert (q < 32) by (unfold q; lia). destruct (Z.ltb_spec q 32); [|lia]. cbn [andb]. rewrite Z.div_1_r, Z.mod_1_r.
  destruct (Z.ltb_spec j 16) as [J|J].
  - destruct (Z.ltb_spec q 16); [unfold q in *; dlia|]. do 3 f_equal. unfold texel_at, q. dlia.
  - destruct (Z.ltb_spec q 16); [|unfold q in *; dlia]. do 3 f_equal. unfold texel_at, q. dlia.
Qed.

Lemma texel_bits m c q t : (forall k, 0 <= k < 16 -> 0 <= c k < 4) -> 0 <= q < 16 -> 0 <= t -> let p := t mod 16 in
  etc_selector_bits m (Z.shiftr (digits 4 16 c) (2 * q)) t = Ok (c q / 2 * 2 ^ p + c q mod 2 * 2 ^ (16 + p)).
Proof.
  intros Hc Hq Ht p. unfold etc_selector_bits. assert (0 <= p < 16) as Rp by (apply Z.mod_pos_bound; lia).
  pose proof (digits_nth 2 16 c q ltac:(lia) Hq Hc) as D. rewrite <- shr_div in D by lia. change (2 ^ 2) with 4 in D.
  set (X := Z.shiftr _ _) in *. pose proof (Hc q Hq) as R.
  assert (Z.land t 15 = p) as -> by (change 15 with (Z.ones 4); rewrite Z.land_ones by lia; reflexivity).
  change 1 with (Z.ones 1) at 2 3. rewrite !Z.land_ones by lia. change (2 ^ 1) with 2. rewrite shr_div by lia. change (2 ^ 1) with 2. rewrite shl_mul by lia.
  assert (X / 2 mod 2 = c q / 2) as -> by dlia. assert (X mod 2 = c q mod 2) as -> by dlia.
  rewrite lor_comm_add; [|lia|change (2 ^ 16) with 65536; dlia].
  rewrite ushl_ok by lia. f_equal. assert (0 < 2 ^ p) by (apply Z.pow_pos_nonneg; lia). assert (2 ^ p <= 2 ^ 15) by (apply Z.pow_le_mono_r; lia).
  rewrite Z.mod_small; [rewrite Z.pow_add_r by lia; ring|]. change (2 ^ 15) with 32768 in *. change (2 ^ 16) with 65536. assert (0 <= c q / 2 < 2) by dlia. assert (0 <= c q mod 2 < 2) by dlia. change (2 ^ 32) with 4294967296. nia.
Qed.

Lemma etc_selectors_ok m (sub : bool) i v pal : (forall k, 0 <= k < 16 -> 0 <= v k < 4) -> 0 <= i ->
  let k2 := if sub then 2 * i + 1 else i in
  k2 < zlen pal -> znth pal k2 = 0 -> (sub = true -> znth pal (2 * i) = 0) ->
  let w1 := etc_color_word (fun p => znth etc_color_code (v p)) in
  let w2 := etc_color_word (fun p => znth etc_color_code (v (turned p))) in
  exists pal', etc_selectors m sub i (digits 4 16 v) pal = Ok pal' /\ zlen pal' = zlen pal /\
    forall j, 0 <= j < zlen pal -> znth pal' j = if sub && (j =? 2 * i) then w1 else if j =? k2 then w2 else znth pal j.
Proof.
  intros Hv Hi k2 Hk Z2 Z1 w1 w2. unfold etc_selectors. cbv zeta. rewrite etc_selectors_code by exact Hv.
  set (g1 := fun p => znth etc_color_code (v p)) in *. set (g2 := fun p => znth etc_color_code (v (turned p))) in *. fold g1.
  assert (forall k, 0 <= g1 k < 4) as R1 by (intros; apply etc_code_range). assert (forall k, 0 <= g2 k < 4) as R2 by (intros; apply etc_code_range).
  set (S := fun T (p : list Z) => zlen p = zlen pal /\ forall j, 0 <= j < zlen pal -> znth p j = if sub && (j =? 2 * i) then etc_partial g1 T else if j =? k2 then etc_partial g2 T else znth pal j).
  match goal with |- context [for_range 0 4 ?g (8, pal)] => destruct (for_range_inv (fun h (st : Z * list Z) => fst st = 8 + h /\ S (4 * h) (snd st)) 0 4 g (8, pal)) as ([t' pal'] & E & Q) end.
  - lia.
  - split; [reflexivity|]. split; [reflexivity|]. intros j Hj. change (4 * 0) with 0. rewrite !etc_partial_start.
    cbn [snd]. destruct sub; cbn [andb].
    + destruct (Z.eqb_spec j (2 * i)) as [->|]; [auto|]. destruct (Z.eqb_spec j k2) as [->|]; auto.
    + destruct (Z.eqb_spec j k2) as [->|]; auto.
  - intros h [t p0] Hh [Et HS]. cbn [fst snd] in *. subst t.
    match goal with |- context [for_range 0 4 ?g (8 + h, p0)] => destruct (for_range_inv (fun w (st : Z * list Z) => fst st = 8 + h + 4 * w /\ S (4 * h + w) (snd st)) 0 4 g (8 + h, p0)) as ([t1 p1] & E & Q) end.
    + lia.
    + cbn [fst snd]. split; [lia|]. rewrite Z.add_0_r. exact HS.
    + intros w [t p] Hw [Et [L V]]. cbn [fst snd] in *. subst t.
      assert (Z.lor (Z.shiftl w 3) (Z.shiftl h 1) = 2 * (4 * w + h)) as ->.
      { rewrite !shl_mul by lia. rewrite lor_add by lia. lia. }
      assert (Z.lor (Z.shiftl h 3) (Z.shiftl w 1) = 2 * (4 * h + w)) as ->.
      { rewrite !shl_mul by lia. rewrite lor_add by lia. lia. }
      pose proof (etc_partial_step g1 h w R1 Hh Hw) as S1. pose proof (etc_partial_step g2 h w R2 Hh Hw) as S2. cbv zeta in S1, S2.
      assert (g1 (4 * h + w) = g2 (4 * w + h)) as G. { unfold g1, g2. do 2 f_equal. unfold turned. dlia. }
      destruct sub.
      * rewrite (texel_bits m g1 (4 * w + h)) by (auto; lia). cbn [bind].
        assert (Z.shiftl i 1 = 2 * i) as -> by (rewrite shl_mul by lia; lia).
        rewrite (idx_ok) by (rewrite L; unfold k2 in Hk; lia). cbn [bind]. rewrite upd_ok by (rewrite L; unfold k2 in Hk; lia). cbn [bind].
        rewrite (texel_bits m g1 (4 * h + w)) by (auto; lia). cbn [bind].
        assert (Z.lor (2 * i) 1 = 2 * i + 1) as ->. { replace (2 * i) with (i * 2 ^ 1) by lia. rewrite lor_add by lia. lia. }
        rewrite (idx_ok) by (rewrite zlen_replace_nth, L; unfold k2 in Hk; lia). cbn [bind]. rewrite upd_ok by (rewrite zlen_replace_nth, L; unfold k2 in Hk; lia). cbn [bind].
        eexists. split; [reflexivity|]. cbn [fst snd]. split; [lia|]. split; [rewrite !zlen_replace_nth; exact L|]. intros j Hj.
        rewrite znth_replace by (rewrite ?zlen_replace_nth, ?L; unfold k2 in Hk; lia). rewrite !znth_replace by (rewrite ?L; unfold k2 in Hk; lia).
        rewrite !V by (unfold k2 in Hk; lia). cbn [andb]. replace (4 * h + (w + 1)) with (4 * h + w + 1) by lia. rewrite Z.eqb_refl.
        destruct (Z.eqb_spec j (2 * i + 1)) as [E|E].
        -- destruct (Z.eqb_spec j (2 * i)); [lia|]. destruct (Z.eqb_spec (2 * i + 1) (2 * i)); [lia|]. unfold k2. rewrite E, Z.eqb_refl. rewrite G, <- S2. reflexivity.
        -- destruct (Z.eqb_spec j (2 * i)); [rewrite <- S1; reflexivity|]. destruct (Z.eqb_spec j k2); [unfold k2 in *; lia|reflexivity].
      * cbn [bind]. rewrite (texel_bits m g1 (4 * h + w)) by (auto; lia). cbn [bind].
        rewrite (idx_ok) by (rewrite L; unfold k2 in Hk; lia). cbn [bind]. rewrite upd_ok by (rewrite L; unfold k2 in Hk; lia). cbn [bind].
        eexists. split; [reflexivity|]. cbn [fst snd]. split; [lia|]. split; [rewrite !zlen_replace_nth; exact L|]. intros j Hj.
        rewrite !znth_replace by (rewrite ?L; unfold k2 in Hk; lia).
        rewrite !V by (unfold k2 in Hk; lia). cbn [andb]. replace (4 * h + (w + 1)) with (4 * h + w + 1) by lia. unfold k2. rewrite Z.eqb_refl.
        destruct (Z.eqb_spec j i); [rewrite G, <- S2; reflexivity|reflexivity].
    + rewrite E. cbn [bind]. cbn [fst snd] in Q. destruct Q as [-> Q]. eexists. split; [reflexivity|]. cbn [fst snd]. split; [lia|]. replace (4 * (h + 1)) with (4 * h + 4) by lia. exact Q.
  - rewrite E. cbn [bind fst snd] in *. exists pal'. split; [reflexivity|]. destruct Q as [_ [L V]]. split; [exact L|]. intros j Hj. rewrite V by exact Hj. change (4 * 4) with 16. rewrite !etc_partial_end by assumption. reflexivity.
Qed.

(** A palette that is being filled. *)
Definition grown (A : list Z) (n : Z) : list Z := A ++ repeat 0 (Z.to_nat (n - zlen A)).
Lemma zlen_grown A n : zlen A <= n -> zlen (grown A n) = n.
Proof. intros H. unfold grown. rewrite zlen_app, repeat_tab, zlen_tab; lia. Qed.
Lemma znth_grown A n j : 0 <= j < n -> znth (grown A n) j = if j <? zlen A then znth A j else 0.
Proof.
  intros H. unfold grown. rewrite repeat_tab. pose proof (zlen_nonneg A). destruct (Z.ltb_spec j (zlen A)); [apply znth_app1; lia|]. rewrite znth_app2 by lia. apply znth_tab. lia.
Qed.
Lemma grown_put A N n p : zlen A + zlen N <= n -> zlen p = n ->
  (forall j, 0 <= j < n -> znth p j = if (zlen A <=? j) && (j <? zlen A + zlen N) then znth N (j - zlen A) else znth (grown A n) j) ->
  p = grown (A ++ N) n.
Proof.
  intros Hn Hp H. pose proof (zlen_nonneg A). pose proof (zlen_nonneg N). apply znth_ext; [rewrite zlen_grown; [exact Hp|rewrite zlen_app; lia]|].
  intros j Hj. rewrite Hp in Hj. rewrite H, !znth_grown by lia. rewrite zlen_app.
  destruct (Z.leb_spec (zlen A) j), (Z.ltb_spec j (zlen A + zlen N)), (Z.ltb_spec j (zlen A)); cbn [andb]; try lia; try reflexivity.
  - rewrite znth_app2 by lia. reflexivity.
  - rewrite znth_app1 by lia. reflexivity.
Qed.
Lemma grown_all A n : zlen A = n -> grown A n = A.
Proof. intros <-. unfold grown. rewrite Z.sub_diag. apply app_nil_r. Qed.

Lemma subblocks_halves f : has_subblocks f = has_halves f.
Proof. unfold has_subblocks, has_halves. cbv [FmtEtc1 FmtEtc2 FmtEtc2a]. destruct (Z.leb_spec 10 f), (Z.leb_spec f 12), (Z.eqb_spec f 10), (Z.eqb_spec f 11), (Z.eqb_spec f 12); cbn; try reflexivity; lia. Qed.
Lemma etc_blocks_etc f : has_etc_color_blocks f = is_etc f.
Proof. unfold has_etc_color_blocks, is_etc. cbv [FmtEtc1 FmtEtc2 FmtEtc2a FmtEtc1s FmtEtc2as]. destruct (Z.leb_spec 10 f), (Z.leb_spec f 14), (Z.eqb_spec f 10), (Z.eqb_spec f 11), (Z.eqb_spec f 12), (Z.eqb_spec f 13), (Z.eqb_spec f 14); cbn; try reflexivity; lia. Qed.
Lemma halves_etc f : has_halves f = true -> is_etc f = true.
Proof. unfold has_halves, is_etc. intros H. apply andb_prop in H. destruct H as [H1 H2]. apply Z.leb_le in H1, H2. apply andb_true_intro. split; apply Z.leb_le; lia. Qed.

Definition u_color_sel (f : Z) (d : Z -> Z -> Z) (i : Z) : list Z :=
  let v i k := mixed_value 4 d i k in
  if has_halves f then [etc_color_word (fun p => znth etc_color_code (v i p)); etc_color_word (fun p => znth etc_color_code (v i (turned p)))]
  else if is_etc f then [etc_color_word (fun p => znth etc_color_code (v i (turned p)))]
  else [digits 4 16 (fun k => znth color_code (v i k))].
Lemma u_color_sels_snoc f d n : 0 <= n -> u_color_sels f d (n + 1) = u_color_sels f d n ++ u_color_sel f d n.
Proof. intros Hn. unfold u_color_sels, u_color_sel. destruct (has_halves f); [|destruct (is_etc f)]; [rewrite flat_map_snoc by lia|rewrite map_snoc by lia..]; reflexivity. Qed.
Lemma u_color_sels_len f d n : 0 <= n -> zlen (u_color_sels f d n) = if has_halves f then 2 * n else n.
Proof.
  intros Hn. unfold u_color_sels. destruct (has_halves f); [rewrite (zlen_flat_map 2); [lia|lia|reflexivity]|].
  destruct (is_etc f); (etransitivity; [apply (zlen_tab n)|lia]).
Qed.

(** ** DXT alpha selectors *)
Definition alpha_pair (x : Z) : Z := znth alpha_code (x mod 8) + 8 * znth alpha_code (x / 8).
Lemma pair_table : dxt5_from_linear = Ok (tab 64 alpha_pair).
Proof. vm_compute. reflexivity. Qed.
Lemma alpha_pair_range x : 0 <= alpha_pair x < 64.
Proof. unfold alpha_pair. pose proof (alpha_code_range (x mod 8)). pose proof (alpha_code_range (x / 8)). lia. Qed.
Lemma digits_8_4 b g : digits b 8 g = digits b 4 g + b ^ 4 * digits b 4 (fun k => g (4 + k)).
Proof.
  unfold digits. change 8 with (7 + 1). rewrite !zsum_snoc by lia. change 7 with (6 + 1). rewrite zsum_snoc by lia. change 6 with (5 + 1). rewrite zsum_snoc by lia. change 5 with (4 + 1). rewrite zsum_snoc by lia.
  change 4 with (3 + 1). rewrite !zsum_snoc by lia. change 3 with (2 + 1). rewrite !zsum_snoc by lia. change 2 with (1 + 1). rewrite !zsum_snoc by lia. change 1 with (0 + 1). rewrite !zsum_snoc by lia. rewrite !zsum_0.
  cbn [Z.add Pos.add Pos.succ]. ring.
Qed.
Lemma alpha_packed d i : 0 <= i -> (forall i j, 0 <= d i j < 64) -> let g j := alpha_pair (mixed i (fun i' => d i' j)) in
  let V := digits 8 16 (fun k => znth alpha_code (mixed_value 8 d i k)) in
  let s0 := digits 64 4 g in let s1 := digits 64 4 (fun j => g (4 + j)) in
  [u16 s0; u16 (Z.lor (Z.shiftr s0 16) (u32 (Z.shiftl s1 8))); u16 (Z.shiftr s1 8)] = map (fun w => V / 65536 ^ w mod 65536) (zrange 0 3).
Proof.
  intros Hi HD g V s0 s1.
  assert (V = s0 + 2 ^ 24 * s1) as EV.
  { transitivity (digits 64 8 g); [|exact (digits_8_4 64 g)]. change 64 with (2 ^ (2 * 3)). rewrite digits_split; [|lia|lia|intros; apply alpha_pair_range].
    unfold V. change (2 ^ 3) with 8. apply digits_ext. intros k Hk. change 8 with (2 ^ 3) at 1. rewrite mixed_part by lia. change (2 ^ 3) with 8. unfold g.
    pose proof (mixed_range 6 i (fun i' => d i' (k / 2)) ltac:(lia) ltac:(lia) ltac:(intros; apply HD)) as R. set (x := mixed i _) in *. unfold alpha_pair.
    pose proof (alpha_code_range (x mod 8)). pose proof (alpha_code_range (x / 8)).
    assert (k mod 2 = 0 \/ k mod 2 = 1) as [->| ->] by dlia; [change (8 ^ 0) with 1; rewrite Z.div_1_r|change (8 ^ 1) with 8; rewrite (Z.mod_small (x / 8)) by (change (2 ^ 6) with 64 in R; dlia)]; dlia. }
  assert (0 <= s0 < 2 ^ 24) as R0 by (apply (digits_bound 64 4); [lia|lia|intros; apply alpha_pair_range]).
  assert (0 <= s1 < 2 ^ 24) as R1 by (apply (digits_bound 64 4); [lia|lia|intros; apply alpha_pair_range]).
  change (zrange 0 3) with [0; 1; 2]. cbn [map]. rewrite !shr_div, shl_mul by lia. unfold u32. rewrite (Z.mod_small (s1 * 2 ^ 8)) by lia. rewrite lor_comm_add by dlia.
  unfold u16. change (65536 ^ 0) with 1. change (65536 ^ 1) with 65536. change (65536 ^ 2) with 4294967296. rewrite EV. clear EV V. clearbody s0 s1. change (2 ^ 24) with 16777216 in *. change (2 ^ 16) with 65536. change (2 ^ 8) with 256.
  f_equal; [dlia|]. f_equal; [dlia|]. f_equal. dlia.
Qed.

(** ** ETC alpha selectors *)
(** Byte [j] of a list of words. *)
Definition wbyte (l : list Z) (j : Z) : Z := znth l (j / 2) / 256 ^ (j mod 2) mod 256.
Definition wordsb (l : list Z) : Prop := Forall (fun x => 0 <= x < 65536) l.
Lemma wbyte_even l t : wbyte l (2 * t) = znth l t mod 256.
Proof. unfold wbyte. assert (2 * t / 2 = t) as -> by dlia. assert (2 * t mod 2 = 0) as -> by dlia. change (256 ^ 0) with 1. rewrite Z.div_1_r. reflexivity. Qed.
Lemma wbyte_odd l t : wbyte l (2 * t + 1) = znth l t / 256 mod 256.
Proof. unfold wbyte. assert ((2 * t + 1) / 2 = t) as -> by dlia. assert ((2 * t + 1) mod 2 = 1) as -> by dlia. reflexivity. Qed.
Lemma wordsb_znth l i : wordsb l -> 0 <= znth l i < 65536.
Proof. intros H. unfold znth. destruct (Nat.lt_ge_cases (Z.to_nat i) (length l)); [apply (proj1 (Forall_forall _ _) H), nth_In; auto|rewrite nth_overflow by auto; lia]. Qed.
Lemma word_of_bytes l t : wordsb l -> znth l t = wbyte l (2 * t) + 256 * wbyte l (2 * t + 1).
Proof. intros H. rewrite wbyte_even, wbyte_odd. pose proof (wordsb_znth l t H). dlia. Qed.

Lemma write_or_u8_ok buf index v : wordsb buf -> 0 <= index < 2 * zlen buf -> 0 <= v < 256 ->
  exists buf', write_or_u8 buf index v = Ok buf' /\ zlen buf' = zlen buf /\ wordsb buf' /\
    forall j, 0 <= j -> wbyte buf' j = if j =? index then Z.lor (wbyte buf j) v else wbyte buf j.
Proof.
  intros W Hi Hv. unfold write_or_u8. rewrite shr_div by lia. change (2 ^ 1) with 2. rewrite idx_ok by dlia. cbn [bind]. change 1 with (Z.ones 1) at 1. rewrite Z.land_ones by lia. change (2 ^ 1) with 2.
  set (t := index / 2). pose proof (wordsb_znth buf t W) as R. rewrite shr_div by lia. unfold u8, u16. change (2 ^ 8) with 256. rewrite (Z.mod_small v) by lia.
  set (x := znth buf t) in *. rewrite (Z.mod_small (x / 256)) by dlia. assert (0 <= t < zlen buf) as Rt by (unfold t; dlia).
  assert (forall y, 0 <= y < 65536 -> (forall j, 0 <= j -> j / 2 = t -> y / 256 ^ (j mod 2) mod 256 = if j =? index then Z.lor (wbyte buf j) v else wbyte buf j) ->
    exists buf', upd buf t y = Ok buf' /\ zlen buf' = zlen buf /\ wordsb buf' /\ forall j, 0 <= j -> wbyte buf' j = if j =? index then Z.lor (wbyte buf j) v else wbyte buf j) as K.
  { intros y Hy Hb. rewrite upd_ok by exact Rt. eexists. split; [reflexivity|]. split; [apply zlen_replace_nth|]. split.
    - apply Forall_forall. intros z Hz. apply In_nth with (d := 0) in Hz. destruct Hz as (k & Hk & <-). rewrite nth_replace_nth by (unfold zlen in Rt; lia). destruct (_ =? _)%nat; [exact Hy|].
      rewrite length_replace_nth in Hk. apply (proj1 (Forall_forall _ _) W), nth_In, Hk.
    - intros j Hj. unfold wbyte at 1. rewrite znth_replace by dlia. destruct (Z.eqb_spec (j / 2) t) as [E|E]; [apply Hb; auto|].
      destruct (Z.eqb_spec j index) as [->|]; [exfalso; apply E; reflexivity|reflexivity]. }
  assert (0 <= x mod 256 < 2 ^ 8) as RL by (apply Z.mod_pos_bound; lia). assert (0 <= x / 256 < 2 ^ 8) as RH by dlia.
  assert (index mod 2 = 0 \/ index mod 2 = 1) as [E|E] by dlia; rewrite E; cbn [Z.eqb negb Pos.eqb].
  - pose proof (lor_small 8 (x mod 256) v ltac:(lia) RL Hv) as RN. rewrite shl_mul by lia. change (2 ^ 8) with 256 in *. rewrite (Z.mod_small (x / 256 * 256)) by dlia.
    rewrite (lor_add' (x / 256) (Z.lor (x mod 256) v) (x / 256 * 256) 8) by (auto; lia). set (n := Z.lor _ v) in *. apply K; [lia|]. intros j Hj Ej. unfold wbyte. rewrite Ej. fold x.
    destruct (Z.eqb_spec j index) as [->|Hne].
    + rewrite E. change (256 ^ 0) with 1. rewrite !Z.div_1_r. fold n. dlia.
    + assert (j mod 2 = 1) as -> by (unfold t in Ej; dlia). change (256 ^ 1) with 256. dlia.
  - pose proof (lor_small 8 (x / 256) v ltac:(lia) RH Hv) as RN. rewrite shl_mul by lia. set (n := Z.lor (x / 256) v) in *. change (2 ^ 8) with 256 in *. rewrite (Z.mod_small (n * 256)) by dlia.
    rewrite (lor_add' n (x mod 256) (n * 256) 8) by (auto; lia). apply K; [lia|]. intros j Hj Ej. unfold wbyte. rewrite Ej. fold x.
    destruct (Z.eqb_spec j index) as [->|Hne].
    + rewrite E. change (256 ^ 1) with 256. rewrite (Z.mod_small (x / 256)) by dlia. fold n. dlia.
    + assert (j mod 2 = 0) as -> by (unfold t in Ej; dlia). change (256 ^ 0) with 1. rewrite !Z.div_1_r. dlia.
Qed.

(** Byte [B] of a 48-bit number, the most significant one first; 0 elsewhere. *)
Definition mbyte (n B : Z) : Z := n / 256 ^ (5 - B) mod 256.
Lemma mbyte_lor x y B : mbyte (Z.lor x y) B = Z.lor (mbyte x B) (mbyte y B).
Proof.
  unfold mbyte. destruct (Z.lt_ge_cases 5 B) as [H|H]; [rewrite !Z.pow_neg_r, !Zdiv_0_r by lia; reflexivity|].
  change 256 with (2 ^ 8). rewrite <- Z.pow_mul_r by lia. rewrite <- !shr_div by lia. rewrite <- !Z.land_ones by lia. rewrite Z.shiftr_lor, Z.land_lor_distr_l. reflexivity.
Qed.
Lemma mbyte_out n B : 0 <= n < 2 ^ 48 -> B < 0 \/ 6 <= B -> mbyte n B = 0.
Proof.
  intros Hn [H|H]; unfold mbyte; [|rewrite Z.pow_neg_r, Zdiv_0_r by lia; reflexivity].
  rewrite Z.div_small; [reflexivity|]. split; [lia|]. assert (256 ^ 6 <= 256 ^ (5 - B)) by (apply Z.pow_le_mono_r; lia). change (256 ^ 6) with (2 ^ 48) in *. lia.
Qed.
Lemma mbyte_0 B : mbyte 0 B = 0.
Proof. unfold mbyte. rewrite Zdiv_0_l. reflexivity. Qed.
Lemma mbyte_range n B : 0 <= mbyte n B < 256.
Proof. apply Z.mod_pos_bound. lia. Qed.

(** The bytes of one selector. *)
Lemma field_bytes q s B : 0 <= q < 16 -> 0 <= s < 8 -> let d := 3 * (q + 1) in
  mbyte (s * 8 ^ (15 - q)) B =
  if B =? d / 8 then (s * 2 ^ (8 - d mod 8)) mod 256 else if (d mod 8 <? 3) && (B =? d / 8 - 1) then s / 2 ^ (d mod 8) else 0.
Proof.
  intros Hq Hs d. destruct (Z.lt_ge_cases B 0) as [H|H]; [|destruct (Z.lt_ge_cases 6 B) as [H'|H']].
  - assert (0 < 8 ^ (15 - q) <= 8 ^ 15) as [P1 P2] by (split; [apply Z.pow_pos_nonneg; lia|apply Z.pow_le_mono_r; lia]).
    rewrite mbyte_out; [|change (8 ^ 15) with (2 ^ 45) in P2; change (2 ^ 48) with (8 * 2 ^ 45); nia|lia].
    destruct (Z.eqb_spec B (d / 8)); [unfold d in *; dlia|]. destruct (Z.ltb_spec (d mod 8) 3); [|reflexivity]. destruct (Z.eqb_spec B (d / 8 - 1)); [unfold d in *; dlia|reflexivity].
  - assert (0 < 8 ^ (15 - q) <= 8 ^ 15) as [P1 P2] by (split; [apply Z.pow_pos_nonneg; lia|apply Z.pow_le_mono_r; lia]).
    rewrite mbyte_out; [|change (8 ^ 15) with (2 ^ 45) in P2; change (2 ^ 48) with (8 * 2 ^ 45); nia|lia].
    destruct (Z.eqb_spec B (d / 8)); [unfold d in *; dlia|]. destruct (Z.eqb_spec B (d / 8 - 1)); [unfold d in *; dlia|]. rewrite andb_false_r. reflexivity.
  - assert (all_below 16 (fun q => all_below 8 (fun s => all_below 7 (fun B => let d := 3 * (q + 1) in
      mbyte (s * 8 ^ (15 - q)) B =? (if B =? d / 8 then (s * 2 ^ (8 - d mod 8)) mod 256 else if (d mod 8 <? 3) && (B =? d / 8 - 1) then s / 2 ^ (d mod 8) else 0)))) = true) as C by (vm_compute; reflexivity).
    apply all_below_spec with (x := q) in C; [|lia]. apply all_below_spec with (x := s) in C; [|lia]. apply all_below_spec with (x := B) in C; [|lia]. apply Z.eqb_eq in C. exact C.
Qed.
Lemma write_or_bits_ok m buf base q s : wordsb buf -> 0 <= base -> 0 <= q < 16 -> 0 <= s < 8 -> base + 6 < 2 * zlen buf ->
  exists buf', write_or_bits m buf base (3 * (q + 1)) s = Ok buf' /\ zlen buf' = zlen buf /\ wordsb buf' /\
    forall j, 0 <= j -> wbyte buf' j = Z.lor (wbyte buf j) (mbyte (s * 8 ^ (15 - q)) (j - base)).
Proof.
  intros W Hb Hq Hs Hl. unfold write_or_bits. set (d := 3 * (q + 1)). rewrite shr_div by lia. change (2 ^ 3) with 8. change 7 with (Z.ones 3). rewrite Z.land_ones by lia. change (2 ^ 3) with 8. cbv zeta.
  assert (0 <= d mod 8 < 8) as R8 by (apply Z.mod_pos_bound; lia). assert (0 <= d / 8 <= 6) as Rd by (unfold d; dlia).
  rewrite ushl_ok by lia. cbn [bind]. change 255 with (Z.ones 8). rewrite Z.land_ones by lia.
  assert ((s * 2 ^ (8 - d mod 8)) mod 2 ^ 16 mod 2 ^ 8 = (s * 2 ^ (8 - d mod 8)) mod 256) as ->.
  { set (y := s * _). change (2 ^ 16) with (256 * 256). change (2 ^ 8) with 256. clearbody y. dlia. }
  set (y := s * 2 ^ (8 - d mod 8)). destruct (write_or_u8_ok buf (base + d / 8) (y mod 256) W ltac:(lia) ltac:(apply Z.mod_pos_bound; lia)) as (b1 & -> & L1 & W1 & V1). cbn [bind].
  destruct (Z.ltb_spec (d mod 8) 3) as [H3|H3].
  - rewrite shr_div by lia. assert (0 < 2 ^ (d mod 8)) as P by (apply Z.pow_pos_nonneg; lia).
    assert (0 <= s / 2 ^ (d mod 8) < 256) as RS. { split; [apply Z.div_pos; lia|]. apply Z.le_lt_trans with s; [|lia]. apply Z.div_le_upper_bound; nia. }
    destruct (write_or_u8_ok b1 (base + d / 8 - 1) (s / 2 ^ (d mod 8)) W1 ltac:(rewrite L1; unfold d in *; dlia) RS) as (b2 & -> & L2 & W2 & V2).
    exists b2. split; [reflexivity|]. split; [lia|]. split; [exact W2|]. intros j Hj. rewrite V2, V1 by lia. pose proof (field_bytes q s (j - base) Hq Hs) as FB. cbv zeta in FB. fold d in FB. rewrite FB. fold y.
    destruct (Z.ltb_spec (d mod 8) 3); [|lia]. cbn [andb].
    destruct (Z.eqb_spec j (base + d / 8 - 1)), (Z.eqb_spec j (base + d / 8)), (Z.eqb_spec (j - base) (d / 8)), (Z.eqb_spec (j - base) (d / 8 - 1)); try lia; try reflexivity. symmetry. apply Z.lor_0_r.
  - exists b1. split; [reflexivity|]. split; [exact L1|]. split; [exact W1|]. intros j Hj. rewrite V1 by lia. pose proof (field_bytes q s (j - base) Hq Hs) as FB. cbv zeta in FB. fold d in FB. rewrite FB. fold y.
    destruct (Z.ltb_spec (d mod 8) 3); [lia|]. cbn [andb].
    destruct (Z.eqb_spec j (base + d / 8)), (Z.eqb_spec (j - base) (d / 8)); try lia; try reflexivity. symmetry. apply Z.lor_0_r.
Qed.

(** The number after [T] selectors have been entered, at the places [at_ k]. *)
Definition alpha_partial (pl : Z -> Z) (g : Z -> Z) (T : Z) : Z := digits 8 16 (fun k => if pl (15 - k) <? T then g (pl (15 - k)) else 0).
Lemma alpha_partial_step pl g p : (forall k, 0 <= k < 16 -> 0 <= pl k < 16 /\ pl (pl k) = k) -> (forall k, 0 <= k < 16 -> 0 <= g k < 8) -> 0 <= p < 16 ->
  alpha_partial pl g (p + 1) = Z.lor (alpha_partial pl g p) (g p * 8 ^ (15 - pl p)).
Proof.
  intros Hpl Hg Hp. unfold alpha_partial. destruct (Hpl p Hp) as [P1 P2]. change (8 ^ (15 - pl p)) with ((2 ^ 3) ^ (15 - pl p)). rewrite <- Z.pow_mul_r by lia. change (digits 8) with (digits (2 ^ 3)).
  rewrite digits_lor; [|lia|lia| |apply Hg; exact Hp].
  2: { intros k Hk. destruct (Hpl (15 - k) ltac:(lia)). destruct (_ <? _); [apply Hg; lia|change (2 ^ 3) with 8; lia]. }
  apply digits_ext. intros k Hk. destruct (Hpl (15 - k) ltac:(lia)) as [Q1 Q2]. destruct (Z.eqb_spec k (15 - pl p)) as [->|E].
  - replace (15 - (15 - pl p)) with (pl p) by lia. rewrite P2. destruct (Z.ltb_spec p p); [lia|]. destruct (Z.ltb_spec p (p + 1)); [|lia]. symmetry. apply Z.lor_0_l.
  - assert (pl (15 - k) <> p) by (intros E2; rewrite E2 in Q2; lia). destruct (Z.ltb_spec (pl (15 - k)) p), (Z.ltb_spec (pl (15 - k)) (p + 1)); try lia; reflexivity.
Qed.
Lemma alpha_partial_start pl g : (forall k, 0 <= k < 16 -> 0 <= pl k < 16) -> alpha_partial pl g 0 = 0.
Proof.
  intros H. unfold alpha_partial. rewrite (digits_ext 8 16 _ (fun _ => 0)); [reflexivity|]. intros k Hk. specialize (H (15 - k) ltac:(lia)). destruct (Z.ltb_spec (pl (15 - k)) 0); [lia|reflexivity].
Qed.
Lemma alpha_partial_range pl g T : (forall k, 0 <= k < 16 -> 0 <= pl k < 16) -> (forall k, 0 <= k < 16 -> 0 <= g k < 8) -> 0 <= alpha_partial pl g T < 2 ^ 48.
Proof. intros H Hg. apply (digits_bound 8 16); [lia|lia|]. intros k Hk. specialize (H (15 - k) ltac:(lia)). destruct (_ <? _); [apply Hg; lia|lia]. Qed.
Lemma alpha_partial_words pl g w : (forall k, 0 <= k < 16 -> 0 <= pl k < 16) -> 0 <= w < 3 ->
  let n := alpha_partial pl g 16 in znth (etc_alpha_words (fun p => g (pl p))) w = mbyte n (2 * w) + 256 * mbyte n (2 * w + 1).
Proof.
  intros H Hw n. assert (n = digits 8 16 (fun k => g (pl (15 - k)))) as E.
  { apply digits_ext. intros k Hk. specialize (H (15 - k) ltac:(lia)). destruct (Z.ltb_spec (pl (15 - k)) 16); [reflexivity|lia]. }
  unfold etc_alpha_words. cbv zeta. rewrite <- E. fold (tab 3 (fun w => digits 256 2 (fun k => n / 256 ^ (5 - (2 * w + k)) mod 256))). rewrite znth_tab by lia.
  unfold digits, zsum. change (zrange 0 2) with [0; 1]. cbn [map sum fold_right]. unfold sum. cbn [fold_right]. unfold mbyte. change (256 ^ 0) with 1. change (256 ^ 1) with 256. rewrite Z.add_0_r. ring.
Qed.
Section Palettes.
Context (m : build) (c0 : codec) (rest : list bool).
Hypothesis HR : room c0 rest.

Lemma etc_ends_ok halves xs md d n c : 0 <= n -> prepare_decoder_tables m xs = Ok md -> (forall i k, 0 <= d i k < 32) ->
  Forall item_ok (etc_end_items xs d n) ->
  before c0 (flat_map item_bits (etc_end_items xs d n) ++ rest) c ->
  exists a c', for_range 0 n (fun _ st => unity_etc_endpoint_step m halves md st) (0, [], c) = Ok (a, etc_ends halves d n, c').
Proof.
  intros Hn HP HD HI B.
  match goal with |- exists a c', for_range 0 n ?g ?s = _ => destruct (for_range_inv (fun i (st : Z * list Z * codec) =>
    let '(a, pal, cd) := st in a = digits 256 4 (fun k => at_ 32 i (fun i => d i k)) /\ pal = etc_ends halves d i /\
    Forall item_ok (flat_map (fun i => map (fun k => Sym xs (d i k)) (zrange 0 4)) (zrange i n)) /\
    before c0 (flat_map item_bits (flat_map (fun i => map (fun k => Sym xs (d i k)) (zrange 0 4)) (zrange i n)) ++ rest) cd) 0 n g s) as ([[a pal] c'] & E & Q) end.
  - exact Hn.
  - split; [|split; [reflexivity|split; [exact HI|exact B]]]. symmetry. rewrite digits_4. rewrite !at_0 by lia. reflexivity.
  - intros i [[a pal] cd] Hi (-> & -> & F & A). rewrite items_from in F, A by lia.
    change (zrange 0 4) with [0; 1; 2; 3] in F at 1. change (zrange 0 4) with [0; 1; 2; 3] in A at 1. cbn [map app] in F, A.
    inversion F as [|? ? F1 G1]; subst. inversion G1 as [|? ? F2 G2]; subst. inversion G2 as [|? ? F3 G3]; subst. inversion G3 as [|? ? F4 G4]; subst.
    unfold unity_etc_endpoint_step. cbn [for_list].
    assert (forall k, 0 <= at_ 32 i (fun i' => d i' k) < 32) as RV by (intros; apply Z.mod_pos_bound; lia).
    set (v := fun k => at_ 32 i (fun i' => d i' k)) in *.
    pose proof (HD i 0). pose proof (HD i 1). pose proof (HD i 2). pose proof (HD i 3). pose proof (RV 0) as V0. pose proof (RV 1) as V1. pose proof (RV 2) as V2. pose proof (RV 3) as V3.
    change (0 <= v 0 < 32) in V0. change (0 <= v 1 < 32) in V1. change (0 <= v 2 < 32) in V2. change (0 <= v 3 < 32) in V3.
    destruct (take_item m c0 rest HR _ _ _ _ cd F1 HP A) as (c1 & -> & A1). cbn [bind]. rewrite ushl_ok by lia. cbn [bind]. rewrite Z.mod_small by lia. rewrite (digits_4 v), ua_ok by lia. cbn [bind].
    destruct (take_item m c0 rest HR _ _ _ _ c1 F2 HP A1) as (c2 & -> & A2). cbn [bind]. rewrite ushl_ok by lia. cbn [bind]. rewrite Z.mod_small by lia. rewrite ua_ok by lia. cbn [bind].
    destruct (take_item m c0 rest HR _ _ _ _ c2 F3 HP A2) as (c3 & -> & A3). cbn [bind]. rewrite ushl_ok by lia. cbn [bind]. rewrite Z.mod_small by lia. rewrite ua_ok by lia. cbn [bind].
    destruct (take_item m c0 rest HR _ _ _ _ c3 F4 HP A3) as (c4 & -> & A4). cbn [bind]. rewrite ushl_ok by lia. cbn [bind]. rewrite Z.mod_small by lia. rewrite ua_ok by lia. cbn [bind].
    match goal with |- context [Z.land ?x 0x1F1F1F1F] => replace x with (digits 256 4 (fun k => v k + d i k)) by (rewrite digits_4; lia) end.
    rewrite etc_mask by (intros k Hk; specialize (RV k); specialize (HD i k); change (at_ 32 i (fun i' => d i' k)) with (v k) in RV; lia).
    assert (digits 256 4 (fun k => (v k + d i k) mod 32) = digits 256 4 (fun k => at_ 32 (i + 1) (fun i' => d i' k))) as ->.
    { apply digits_ext. intros k Hk. unfold v. apply (at_next 32 i (fun i' => d i' k)); lia. }
    eexists. split; [reflexivity|]. split; [reflexivity|]. split; [|split; [exact G4|exact A4]].
    unfold etc_ends. rewrite map_snoc by lia. f_equal. f_equal. cbv zeta. destruct halves; [reflexivity|].
    apply (etc_plain_end (fun k => at_ 32 (i + 1) (fun i' => d i' k))). intros; apply Z.mod_pos_bound; lia.
  - destruct Q as (_ & -> & _). exists a, c'. exact E.
Qed.

(** ** Selectors *)
Definition sel_state (b i : Z) (d : Z -> Z -> Z) (n : Z) : Z := digits (2 ^ (2 * b)) n (fun j => mixed (i - 1) (fun i' => d i' j)).

Lemma selector_bits_ok xs md d i items c : 0 <= i -> prepare_decoder_tables m xs = Ok md -> (forall i k, 0 <= d i k < 16) ->
  Forall item_ok (map (fun j => Sym xs (d i j)) (zrange 0 8)) ->
  before c0 (flat_map item_bits (map (fun j => Sym xs (d i j)) (zrange 0 8) ++ items) ++ rest) c ->
  exists c', unity_selector_bits m md (sel_state 2 i d 8, c) = Ok (sel_state 2 (i + 1) d 8, c') /\
    before c0 (flat_map item_bits items ++ rest) c'.
Proof.
  intros Hi HP HD HI B. unfold unity_selector_bits. change [0; 4; 8; 12; 16; 20; 24; 28] with (map (fun j => 4 * j) (zrange 0 8)).
  assert (forall k j c, k = Z.to_nat (8 - j) -> 0 <= j <= 8 ->
    Forall item_ok (map (fun j => Sym xs (d i j)) (zrange j 8)) ->
    before c0 (flat_map item_bits (map (fun j => Sym xs (d i j)) (zrange j 8) ++ items) ++ rest) c ->
    exists c', for_list (map (fun j => 4 * j) (zrange j 8)) (fun j st =>
      let '(s, cd) := st in
      let* (x, cd) := decode m md cd in
      let* x := ushl m 32 x j in
      Ok (Z.lxor s x, cd)) (digits 16 8 (fun k => if k <? j then mixed i (fun i' => d i' k) else mixed (i - 1) (fun i' => d i' k)), c) =
    Ok (sel_state 2 (i + 1) d 8, c') /\ before c0 (flat_map item_bits items ++ rest) c') as K.
  { clear B HI c. induction k as [|k IH]; intros j c Ek Hj HI B.
    - assert (j = 8) as -> by lia. change (zrange 8 8) with (@nil Z) in *. cbn [map app] in *. exists c. split; [|exact B]. cbn [for_list]. f_equal. f_equal. unfold sel_state. replace (i + 1 - 1) with i by lia.
      change (2 ^ (2 * 2)) with 16. apply digits_ext. intros k Hk. destruct (Z.ltb_spec k 8); [reflexivity|lia].
    - rewrite zrange_cons in * by lia. cbn [map app for_list] in *. inversion HI as [|? ? F1 F']; subst.
      destruct (take_item m c0 rest HR _ _ _ _ c F1 HP B) as (c1 & -> & A1). cbn [bind]. rewrite ushl_ok by lia. cbn [bind].
      pose proof (HD i j) as Dj. rewrite Z.mod_small.
      2: { split; [apply Z.mul_nonneg_nonneg; [lia|apply Z.pow_nonneg; lia]|]. assert (2 ^ (4 * j) <= 2 ^ 28) by (apply Z.pow_le_mono_r; lia). change (2 ^ 32) with (16 * 2 ^ 28). nia. }
      change 16 with (2 ^ 4). rewrite digits_lxor; [|lia|lia| |change (2 ^ 4) with 16; lia].
      2: { intros k0 Hk0. destruct (k0 <? j); apply (mixed_range 4); auto; lia. }
      destruct (IH (j + 1) c1 ltac:(lia) ltac:(lia) F' A1) as (c' & E & B'). exists c'. split; [|exact B']. etransitivity; [|exact E]. f_equal. f_equal. change (2 ^ 4) with 16.
      apply digits_ext. intros k0 Hk0. destruct (Z.eqb_spec k0 j) as [->|].
      + destruct (Z.ltb_spec j j); [lia|]. destruct (Z.ltb_spec j (j + 1)); [|lia]. symmetry. apply (mixed_next i (fun i' => d i' j)). lia.
      + destruct (Z.ltb_spec k0 j), (Z.ltb_spec k0 (j + 1)); try lia; reflexivity. }
  destruct (K 8%nat 0 c eq_refl ltac:(lia) HI B) as (c' & E & B'). exists c'. split; [|exact B']. replace (sel_state 2 i d 8) with (digits 16 8 (fun k => if k <? 0 then mixed i (fun i' => d i' k) else mixed (i - 1) (fun i' => d i' k))); [exact E|].
  unfold sel_state. change (2 ^ (2 * 2)) with 16. apply digits_ext. intros k Hk. destruct (Z.ltb_spec k 0); [lia|reflexivity].
Qed.

Lemma color_sels_ok f xs md d n c : 0 <= n -> prepare_decoder_tables m xs = Ok md -> (forall i k, 0 <= d i k < 16) ->
  Forall item_ok (selector_items xs d n) ->
  before c0 (flat_map item_bits (selector_items xs d n) ++ rest) c ->
  exists s c', for_range 0 n (fun i st =>
      let '(s, pal, cd) := st in
      let* (s, cd) := unity_selector_bits m md (s, cd) in
      let* pal :=
        if has_etc_color_blocks f then etc_selectors m (has_subblocks f) i s pal
        else upd pal i (Z.lor (Z.land (Z.lxor s (u32 (Z.shiftl s 1))) 0xAAAAAAAA) (Z.land (Z.shiftr s 1) 0x55555555)) in
      Ok (s, pal, cd)) (0, repeat 0 (Z.to_nat (if has_subblocks f then Z.shiftl n 1 else n)), c) = Ok (s, u_color_sels f d n, c').
Proof.
  intros Hn HP HD HI B. rewrite etc_blocks_etc, subblocks_halves. set (size := if has_halves f then Z.shiftl n 1 else n).
  assert (size = if has_halves f then 2 * n else n) as ES by (unfold size; destruct (has_halves f); [rewrite shl_mul by lia; lia|reflexivity]).
  match goal with |- exists a c', for_range 0 n ?g ?st0 = _ => destruct (for_range_inv (fun i (st : Z * list Z * codec) =>
    let '(s, pal, cd) := st in s = sel_state 2 i d 8 /\ pal = grown (u_color_sels f d i) size /\
    Forall item_ok (flat_map (fun i => map (fun j => Sym xs (d i j)) (zrange 0 8)) (zrange i n)) /\
    before c0 (flat_map item_bits (flat_map (fun i => map (fun j => Sym xs (d i j)) (zrange 0 8)) (zrange i n)) ++ rest) cd) 0 n g st0) as ([[s pal] c'] & E & Q) end.
  - exact Hn.
  - split; [reflexivity|]. split; [|split; [exact HI|exact B]]. unfold grown, u_color_sels. change (zrange 0 0) with (@nil Z). cbn [flat_map map]. destruct (has_halves f), (is_etc f); cbn [app]; rewrite Z.sub_0_r; reflexivity.
  - intros i [[s pal] cd] Hi (-> & -> & F & A). rewrite items_from in F, A by lia. apply Forall_app in F. destruct F as [F1 F2].
    destruct (selector_bits_ok xs md d i _ cd ltac:(lia) HP HD F1 A) as (c1 & -> & A1). cbn [bind].
    assert (sel_state 2 (i + 1) d 8 = digits 4 16 (mixed_value 4 d i)) as ED.
    { unfold sel_state. replace (i + 1 - 1) with i by lia. apply (mixed_digits 2 d i 8); [lia|lia|lia|exact HD]. }
    assert (forall k, 0 <= k < 16 -> 0 <= mixed_value 4 d i k < 4) as RV by (intros; apply (mixed_value_range 2); lia).
    pose proof (u_color_sels_len f d i ltac:(lia)) as LS.
    assert (zlen (u_color_sels f d i) <= size) as LE by (rewrite LS, ES; destruct (has_halves f); lia).
    assert (forall pal' : list Z, pal' = grown (u_color_sels f d (i + 1)) size ->
      exists st', Ok (sel_state 2 (i + 1) d 8, pal', c1) = Ok st' /\ (let '(s, pal, cd) := st' in s = sel_state 2 (i + 1) d 8 /\ pal = grown (u_color_sels f d (i + 1)) size /\
        Forall item_ok (flat_map (fun i => map (fun j => Sym xs (d i j)) (zrange 0 8)) (zrange (i + 1) n)) /\
        before c0 (flat_map item_bits (flat_map (fun i => map (fun j => Sym xs (d i j)) (zrange 0 8)) (zrange (i + 1) n)) ++ rest) cd)) as FIN.
    { intros pal' ->. eexists. split; [reflexivity|]. cbn. auto. }
    destruct (is_etc f) eqn:Et.
    + rewrite ED. destruct (etc_selectors_ok m (has_halves f) i (mixed_value 4 d i) (grown (u_color_sels f d i) size)) as (pal' & E' & L' & V').
      * exact RV.
      * lia.
      * rewrite zlen_grown by exact LE. rewrite ES. destruct (has_halves f); lia.
      * rewrite znth_grown by (rewrite ES; destruct (has_halves f); lia). rewrite LS. destruct (has_halves f); [destruct (Z.ltb_spec (2 * i + 1) (2 * i))|destruct (Z.ltb_spec i i)]; reflexivity || lia.
      * intros HH. rewrite znth_grown by (rewrite ES, HH; lia). rewrite LS, HH. destruct (Z.ltb_spec (2 * i) (2 * i)); [lia|reflexivity].
      * rewrite E'. cbn [bind]. rewrite <- ED. apply FIN. rewrite u_color_sels_snoc by lia. rewrite zlen_grown in L', V' by exact LE.
        apply grown_put; [|exact L'|].
        -- rewrite LS, ES. unfold u_color_sel. rewrite Et. unfold zlen. destruct (has_halves f); cbn [length]; lia.
        -- intros j Hj. rewrite V' by exact Hj. rewrite LS. unfold u_color_sel. rewrite Et. destruct (has_halves f).
           ++ change (zlen [?a; ?b]) with 2. cbn [andb]. destruct (Z.eqb_spec j (2 * i)) as [->|].
              ** destruct (Z.leb_spec (2 * i) (2 * i)); [|lia]. destruct (Z.ltb_spec (2 * i) (2 * i + 2)); [|lia]. rewrite Z.sub_diag. reflexivity.
              ** destruct (Z.eqb_spec j (2 * i + 1)) as [->|].
                 --- destruct (Z.leb_spec (2 * i) (2 * i + 1)); [|lia]. destruct (Z.ltb_spec (2 * i + 1) (2 * i + 2)); [|lia]. replace (2 * i + 1 - 2 * i) with 1 by lia. reflexivity.
                 --- destruct (Z.leb_spec (2 * i) j), (Z.ltb_spec j (2 * i + 2)); try lia; reflexivity.
           ++ change (zlen [?a]) with 1. cbn [andb]. destruct (Z.eqb_spec j i) as [->|].
              ** destruct (Z.leb_spec i i); [|lia]. destruct (Z.ltb_spec i (i + 1)); [|lia]. rewrite Z.sub_diag. reflexivity.
              ** destruct (Z.leb_spec i j), (Z.ltb_spec j (i + 1)); try lia; reflexivity.
    + assert (has_halves f = false) as HH. { destruct (has_halves f) eqn:HH; [|reflexivity]. apply halves_etc in HH. congruence. }
      rewrite HH in *. rewrite ED. pose proof (dxt_selectors (mixed_value 4 d i) RV) as DX. cbv zeta in DX. rewrite DX.
      rewrite upd_ok by (rewrite zlen_grown by exact LE; lia). cbn [bind]. rewrite <- ED. apply FIN. rewrite u_color_sels_snoc by lia.
      apply grown_put; [|rewrite zlen_replace_nth; apply zlen_grown; exact LE|].
      * rewrite LS, ES. unfold u_color_sel. rewrite Et, HH. unfold zlen. cbn [length]. lia.
      * intros j Hj. rewrite znth_replace by (rewrite ?zlen_grown by exact LE; lia). rewrite LS. unfold u_color_sel. rewrite Et, HH. change (zlen [?a]) with 1.
        destruct (Z.eqb_spec j i) as [->|].
        -- destruct (Z.leb_spec i i); [|lia]. destruct (Z.ltb_spec i (i + 1)); [|lia]. rewrite Z.sub_diag. reflexivity.
        -- destruct (Z.leb_spec i j), (Z.ltb_spec j (i + 1)); try lia; reflexivity.
  - destruct Q as (_ & -> & _). exists s, c'. rewrite E. do 3 f_equal. apply grown_all. rewrite u_color_sels_len by lia. symmetry. exact ES.
Qed.

(** ** DXT alpha selectors *)
Lemma alpha_half_ok xs md d i o items c : 0 <= i -> prepare_decoder_tables m xs = Ok md -> (forall i k, 0 <= d i k < 64) ->
  Forall item_ok (map (fun j => Sym xs (d i (o + j))) (zrange 0 4)) ->
  before c0 (flat_map item_bits (map (fun j => Sym xs (d i (o + j))) (zrange 0 4) ++ items) ++ rest) c ->
  exists c', unity_alpha_half m (tab 64 alpha_pair) md (sel_state 3 i (fun i j => d i (o + j)) 4, c) =
    Ok (sel_state 3 (i + 1) (fun i j => d i (o + j)) 4, digits 64 4 (fun j => alpha_pair (mixed i (fun i' => d i' (o + j)))), c') /\
    before c0 (flat_map item_bits items ++ rest) c'.
Proof.
  intros Hi HP HD HI B. unfold unity_alpha_half. change [0; 6; 12; 18] with (map (fun j => 6 * j) (zrange 0 4)).
  set (V0 := fun j => mixed (i - 1) (fun i' => d i' (o + j))). set (V1 := fun j => mixed i (fun i' => d i' (o + j))).
  assert (forall j, 0 <= V0 j < 64) as RV0 by (intros; apply (mixed_range 6); [lia|lia|intros; apply HD]).
  assert (forall j, 0 <= V1 j < 64) as RV1 by (intros; apply (mixed_range 6); [lia|lia|intros; apply HD]).
  assert (forall k j c, k = Z.to_nat (4 - j) -> 0 <= j <= 4 ->
    Forall item_ok (map (fun j => Sym xs (d i (o + j))) (zrange j 4)) ->
    before c0 (flat_map item_bits (map (fun j => Sym xs (d i (o + j))) (zrange j 4) ++ items) ++ rest) c ->
    exists c', for_list (map (fun j => 6 * j) (zrange j 4)) (fun j st =>
      let '(lin, s, cd) := st in
      let* (x, cd) := decode m md cd in
      let* x := ushl m 32 x j in
      let lin := Z.lxor lin x in
      let* v := idx (tab 64 alpha_pair) (Z.land (Z.shiftr lin j) 0x3F) in
      Ok (lin, Z.lor s (Z.shiftl v j), cd)) (digits 64 4 (fun k => if k <? j then V1 k else V0 k), digits 64 4 (fun k => if k <? j then alpha_pair (V1 k) else 0), c) =
    Ok (digits 64 4 V1, digits 64 4 (fun k => alpha_pair (V1 k)), c') /\ before c0 (flat_map item_bits items ++ rest) c') as K.
  { clear B HI c. induction k as [|k IH]; intros j c Ek Hj HI B.
    - assert (j = 4) as -> by lia. change (zrange 4 4) with (@nil Z) in *. cbn [map app] in *. exists c. split; [|exact B]. cbn [for_list].
      rewrite (digits_ext 64 4 (fun k => if k <? 4 then V1 k else V0 k) V1), (digits_ext 64 4 (fun k => if k <? 4 then alpha_pair (V1 k) else 0) (fun k => alpha_pair (V1 k))) by (intros k Hk; destruct (Z.ltb_spec k 4); reflexivity || lia). reflexivity.
    - rewrite zrange_cons in * by lia. cbn [map app for_list] in *. inversion HI as [|? ? F1 F']; subst.
      destruct (take_item m c0 rest HR _ _ _ _ c F1 HP B) as (c1 & -> & A1). cbn [bind]. rewrite ushl_ok by lia. cbn [bind].
      pose proof (HD i (o + j)) as Dj. rewrite Z.mod_small.
      2: { split; [apply Z.mul_nonneg_nonneg; [lia|apply Z.pow_nonneg; lia]|]. assert (2 ^ (6 * j) <= 2 ^ 18) by (apply Z.pow_le_mono_r; lia). change (2 ^ 32) with (16384 * 2 ^ 18). nia. }
      change (digits 64) with (digits (2 ^ 6)). rewrite digits_lxor; [|lia|lia| |change (2 ^ 6) with 64; lia].
      2: { intros k0 Hk0. destruct (k0 <? j); [apply RV1|apply RV0]. }
      assert (digits (2 ^ 6) 4 (fun k0 => if k0 =? j then Z.lxor (if k0 <? j then V1 k0 else V0 k0) (d i (o + j)) else if k0 <? j then V1 k0 else V0 k0) =
        digits 64 4 (fun k => if k <? j + 1 then V1 k else V0 k)) as EL.
      { apply digits_ext. intros k0 Hk0. destruct (Z.eqb_spec k0 j) as [->|].
        - destruct (Z.ltb_spec j j); [lia|]. destruct (Z.ltb_spec j (j + 1)); [|lia]. symmetry. apply (mixed_next i (fun i' => d i' (o + j))). lia.
        - destruct (Z.ltb_spec k0 j), (Z.ltb_spec k0 (j + 1)); try lia; reflexivity. }
      rewrite EL. rewrite shr_div by lia. change 63 with (Z.ones 6). rewrite Z.land_ones by lia.
      pose proof (digits_nth 6 4 (fun k => if k <? j + 1 then V1 k else V0 k) j ltac:(lia) ltac:(lia) ltac:(intros k0 _; cbv beta; destruct (k0 <? j + 1); [apply RV1|apply RV0])) as DN.
      change (digits (2 ^ 6)) with (digits 64) in DN. rewrite DN. destruct (Z.ltb_spec j (j + 1)); [|lia]. pose proof (RV1 j) as Rj.
      rewrite idx_ok by (rewrite zlen_tab; lia). cbn [bind]. rewrite znth_tab by lia. rewrite shl_mul by lia.
      change (digits 64) with (digits (2 ^ 6)). rewrite digits_lor; [|lia|lia| |apply alpha_pair_range].
      2: { intros k0 Hk0. destruct (k0 <? j); [apply alpha_pair_range|change (2 ^ 6) with 64; lia]. }
      assert (digits (2 ^ 6) 4 (fun k0 => if k0 =? j then Z.lor (if k0 <? j then alpha_pair (V1 k0) else 0) (alpha_pair (V1 j)) else if k0 <? j then alpha_pair (V1 k0) else 0) =
        digits 64 4 (fun k => if k <? j + 1 then alpha_pair (V1 k) else 0)) as ES.
      { apply digits_ext. intros k0 Hk0. destruct (Z.eqb_spec k0 j) as [->|].
        - destruct (Z.ltb_spec j j); [lia|]. destruct (Z.ltb_spec j (j + 1)); [|lia]. apply Z.lor_0_l.
        - destruct (Z.ltb_spec k0 j), (Z.ltb_spec k0 (j + 1)); try lia; reflexivity. }
      rewrite ES. exact (IH (j + 1) c1 ltac:(lia) ltac:(lia) F' A1). }
  destruct (K 4%nat 0 c eq_refl ltac:(lia) HI B) as (c' & E & B'). exists c'. split; [|exact B'].
  unfold sel_state. replace (i + 1 - 1) with i by lia. etransitivity; [|exact E].
  match goal with |- for_list _ _ (?a, ?b, _) = for_list _ _ (?a', ?b', _) => replace a with a'; [replace b with b'; [reflexivity|vm_compute; reflexivity]|] end.
  apply digits_ext. intros k Hk. destruct (Z.ltb_spec k 0); [lia|reflexivity].
Qed.

Lemma alpha_sels_ok f xs md d n c : 0 <= n -> prepare_decoder_tables m xs = Ok md -> (forall i k, 0 <= d i k < 64) -> f <> 12 -> f <> 14 ->
  Forall item_ok (selector_items xs d n) ->
  before c0 (flat_map item_bits (selector_items xs d n) ++ rest) c ->
  exists l0 l1 c', for_range 0 n (fun _ st =>
      let '(l0, l1, pal, cd) := st in
      let* (l0, s0, cd) := unity_alpha_half m (tab 64 alpha_pair) md (l0, cd) in
      let* (l1, s1, cd) := unity_alpha_half m (tab 64 alpha_pair) md (l1, cd) in
      Ok (l0, l1, pal ++ [u16 s0; u16 (Z.lor (Z.shiftr s0 16) (u32 (Z.shiftl s1 8))); u16 (Z.shiftr s1 8)],
          cd)) (0, 0, [], c) = Ok (l0, l1, u_alpha_sels f d n, c').
Proof.
  intros Hn HP HD H12 H14 HI B. assert (u_alpha_sels f d n = flat_map (fun i => let v := digits 8 16 (fun k => znth alpha_code (mixed_value 8 d i k)) in map (fun w => v / 65536 ^ w mod 65536) (zrange 0 3)) (zrange 0 n)) as ->.
  { unfold u_alpha_sels. destruct (Z.eqb_spec f 12); [lia|]. destruct (Z.eqb_spec f 14); [lia|]. reflexivity. }
  match goal with |- exists a b c', for_range 0 n ?g ?st0 = _ => destruct (for_range_inv (fun i (st : Z * Z * list Z * codec) =>
    let '(l0, l1, pal, cd) := st in l0 = sel_state 3 i (fun i j => d i (0 + j)) 4 /\ l1 = sel_state 3 i (fun i j => d i (4 + j)) 4 /\
    pal = flat_map (fun i => let v := digits 8 16 (fun k => znth alpha_code (mixed_value 8 d i k)) in map (fun w => v / 65536 ^ w mod 65536) (zrange 0 3)) (zrange 0 i) /\
    Forall item_ok (flat_map (fun i => map (fun j => Sym xs (d i j)) (zrange 0 8)) (zrange i n)) /\
    before c0 (flat_map item_bits (flat_map (fun i => map (fun j => Sym xs (d i j)) (zrange 0 8)) (zrange i n)) ++ rest) cd) 0 n g st0) as ([[[l0 l1] pal] c'] & E & Q) end.
  - exact Hn.
  - split; [reflexivity|]. split; [reflexivity|]. split; [reflexivity|split; [exact HI|exact B]].
  - intros i [[[l0 l1] pal] cd] Hi (-> & -> & -> & F & A). rewrite items_from in F, A by lia.
    change (map (fun j => Sym xs (d i j)) (zrange 0 8)) with (map (fun j => Sym xs (d i (0 + j))) (zrange 0 4) ++ map (fun j => Sym xs (d i (4 + j))) (zrange 0 4)) in F, A.
    rewrite <- app_assoc in F, A. apply Forall_app in F. destruct F as [F1 F]. apply Forall_app in F. destruct F as [F2 F].
    destruct (alpha_half_ok xs md d i 0 _ cd ltac:(lia) HP HD F1 A) as (c1 & -> & A1). cbn [bind].
    destruct (alpha_half_ok xs md d i 4 _ c1 ltac:(lia) HP HD F2 A1) as (c2 & -> & A2). cbn [bind].
    eexists. split; [reflexivity|]. split; [reflexivity|]. split; [reflexivity|]. split; [|split; [exact F|exact A2]].
    rewrite flat_map_snoc by lia. f_equal. exact (alpha_packed d i ltac:(lia) HD).
  - destruct Q as (_ & _ & -> & _). exists l0, l1, c'. exact E.
Qed.

(** ** ETC alpha selectors *)
Definition lin_at (d : Z -> Z -> Z) (i p : Z) : list Z :=
  tab 8 (fun j => if 2 * j <? p then mixed i (fun i' => d i' j) else mixed (i - 1) (fun i' => d i' j)).
Definition alpha_sel (d : Z -> Z -> Z) (i p : Z) : Z := znth etc_alpha_code (mixed_value 8 d i p).

Lemma etc_alpha_value_ok xs md d i p group items c : 0 <= i -> 0 <= p < 16 -> prepare_decoder_tables m xs = Ok md -> (forall i k, 0 <= d i k < 64) ->
  (p mod 2 = 1 -> group = mixed i (fun i' => d i' (p / 2))) ->
  Forall item_ok (map (fun j => Sym xs (d i j)) (zrange ((p + 1) / 2) 8)) ->
  before c0 (flat_map item_bits (map (fun j => Sym xs (d i j)) (zrange ((p + 1) / 2) 8) ++ items) ++ rest) c ->
  exists group' c', etc_alpha_value m md p (lin_at d i p, group, c) = Ok (alpha_sel d i p, (lin_at d i (p + 1), group', c')) /\
    ((p + 1) mod 2 = 1 -> group' = mixed i (fun i' => d i' ((p + 1) / 2))) /\
    Forall item_ok (map (fun j => Sym xs (d i j)) (zrange ((p + 2) / 2) 8)) /\
    before c0 (flat_map item_bits (map (fun j => Sym xs (d i j)) (zrange ((p + 2) / 2) 8) ++ items) ++ rest) c'.
Proof.
  intros Hi Hp HP HD HG HI B. unfold etc_alpha_value. change 1 with (Z.ones 1) at 1. rewrite Z.land_ones by lia. change (2 ^ 1) with 2.
  assert (forall i' j, -1 <= i' -> 0 <= mixed i' (fun i => d i j) < 64) as RM by (intros i' j H; apply (mixed_range 6); [lia|lia|intros; apply HD]).
  assert (forall x, 0 <= x < 8 -> (if x <=? 3 then 3 - x else x) = znth etc_alpha_code x) as EC.
  { intros x Hx. assert (all_below 8 (fun x => (if x <=? 3 then 3 - x else x) =? znth etc_alpha_code x) = true) as C by (vm_compute; reflexivity).
    apply all_below_spec with (x := x) in C; [|lia]. apply Z.eqb_eq in C. exact C. }
  assert (mixed_value 8 d i p = mixed i (fun i' => d i' (p / 2)) / 8 ^ (p mod 2) mod 8) as EM by (apply (mixed_part 3 d i p); lia).
  unfold alpha_sel. assert (p mod 2 = 1 \/ p mod 2 = 0) as [E|E] by dlia; rewrite E in *; cbn [Z.eqb Pos.eqb].
  - cbn [bind]. specialize (HG eq_refl). subst group. change 7 with (Z.ones 3). rewrite Z.land_ones, shr_div by lia. change (2 ^ 3) with 8.
    exists (mixed i (fun i' => d i' (p / 2)) / 8), c. rewrite EC by (apply Z.mod_pos_bound; lia). rewrite EM. change (8 ^ 1) with 8. split; [|split; [|split]].
    + do 3 f_equal. f_equal. apply tab_ext. intros j Hj. destruct (Z.ltb_spec (2 * j) p), (Z.ltb_spec (2 * j) (p + 1)); try dlia; reflexivity.
    + intros. exfalso. dlia.
    + replace ((p + 2) / 2) with ((p + 1) / 2) by dlia. exact HI.
    + replace ((p + 2) / 2) with ((p + 1) / 2) by dlia. exact B.
  - assert ((p + 1) / 2 = p / 2) as E2 by dlia. rewrite E2 in HI, B. rewrite zrange_cons in HI, B by dlia. cbn [map app] in HI, B. inversion HI as [|? ? F1 F']; subst.
    destruct (take_item m c0 rest HR _ _ _ _ c F1 HP B) as (c1 & -> & A1). cbn [bind]. rewrite shr_div by lia. change (2 ^ 1) with 2.
    assert (0 <= p / 2 < 8) as R2 by dlia. unfold lin_at at 1. rewrite idx_ok by (rewrite zlen_tab; lia). cbn [bind]. rewrite znth_tab by lia. cbv beta.
    destruct (Z.ltb_spec (2 * (p / 2)) p); [dlia|]. pose proof (HD i (p / 2)) as Dp. unfold u8. rewrite (Z.mod_small (d i (p / 2))) by lia.
    assert (Z.lxor (mixed (i - 1) (fun i' => d i' (p / 2))) (d i (p / 2)) = mixed i (fun i' => d i' (p / 2))) as -> by (symmetry; apply (mixed_next i (fun i' => d i' (p / 2))); lia).
    rewrite upd_ok by (unfold lin_at; rewrite zlen_tab; lia). cbn [bind]. change 7 with (Z.ones 3). rewrite Z.land_ones by lia. change (2 ^ 3) with 8.
    exists (mixed i (fun i' => d i' (p / 2))), c1. rewrite EC by (apply Z.mod_pos_bound; lia). rewrite EM. change (8 ^ 0) with 1. rewrite Z.div_1_r. split; [|split; [|split]].
    + do 3 f_equal. f_equal. unfold lin_at. apply znth_ext; [rewrite zlen_replace_nth, !zlen_tab; reflexivity|]. intros j Hj. rewrite zlen_replace_nth, zlen_tab in Hj.
      rewrite znth_replace by (rewrite ?zlen_tab; lia). rewrite !znth_tab by lia. destruct (Z.eqb_spec j (p / 2)) as [->|].
      * destruct (Z.ltb_spec (2 * (p / 2)) (p + 1)); [reflexivity|dlia].
      * destruct (Z.ltb_spec (2 * j) p), (Z.ltb_spec (2 * j) (p + 1)); try dlia; reflexivity.
    + intros _. rewrite E2. reflexivity.
    + replace ((p + 2) / 2) with (p / 2 + 1) by dlia. exact F'.
    + replace ((p + 2) / 2) with (p / 2 + 1) by dlia. exact A1.
Qed.

(** One entry, whatever is done with the selectors. *)
Lemma etc_alpha_entry_ok xs md d i items c (wr : Z -> Z -> list Z -> res (list Z)) (P : Z -> list Z -> Prop) pal :
  0 <= i -> prepare_decoder_tables m xs = Ok md -> (forall i k, 0 <= d i k < 64) ->
  Forall item_ok (map (fun j => Sym xs (d i j)) (zrange 0 8)) ->
  before c0 (flat_map item_bits (map (fun j => Sym xs (d i j)) (zrange 0 8) ++ items) ++ rest) c ->
  (forall p pal, 0 <= p < 16 -> P p pal -> exists pal', wr p (alpha_sel d i p) pal = Ok pal' /\ P (p + 1) pal') -> P 0 pal ->
  exists group pal' c', for_range 0 16 (fun p st =>
      let '(lin, group, pal, cd) := st in
      let* (s, (lin, group, cd)) := etc_alpha_value m md p (lin, group, cd) in
      let* pal := wr p s pal in
      Ok (lin, group, pal, cd)) (lin_at d i 0, 0, pal, c) = Ok (lin_at d i 16, group, pal', c') /\ P 16 pal' /\
    before c0 (flat_map item_bits items ++ rest) c'.
Proof.
  intros Hi HP HD HI B HW HP0.
  match goal with |- exists a b c', for_range 0 16 ?g ?st0 = _ /\ _ => destruct (for_range_inv (fun p (st : list Z * Z * list Z * codec) =>
    let '(lin, group, pal, cd) := st in lin = lin_at d i p /\ (p mod 2 = 1 -> group = mixed i (fun i' => d i' (p / 2))) /\ P p pal /\
    Forall item_ok (map (fun j => Sym xs (d i j)) (zrange ((p + 1) / 2) 8)) /\
    before c0 (flat_map item_bits (map (fun j => Sym xs (d i j)) (zrange ((p + 1) / 2) 8) ++ items) ++ rest) cd) 0 16 g st0) as ([[[lin group] pal'] c'] & E & Q) end.
  - lia.
  - split; [reflexivity|]. split; [intros X; discriminate X|]. split; [exact HP0|]. split; [exact HI|exact B].
  - intros p [[[lin group] pal1] cd] Hp (-> & HG & HPp & F & A).
    destruct (etc_alpha_value_ok xs md d i p group items cd Hi Hp HP HD HG F A) as (g' & c1 & -> & HG' & F' & A'). cbn [bind].
    destruct (HW p pal1 Hp HPp) as (pal2 & -> & HP2). cbn [bind]. eexists. split; [reflexivity|]. split; [reflexivity|]. split; [exact HG'|]. split; [exact HP2|].
    replace (p + 1 + 1) with (p + 2) by lia. split; [exact F'|exact A'].
  - destruct Q as (-> & _ & HP16 & _ & A). exists group, pal', c'. split; [exact E|]. split; [exact HP16|exact A].
Qed.

Lemma lin_next d i : 0 <= i -> lin_at d i 16 = lin_at d (i + 1) 0.
Proof.
  intros Hi. apply tab_ext. intros j Hj. destruct (Z.ltb_spec (2 * j) 16); [|lia]. destruct (Z.ltb_spec (2 * j) 0); [lia|]. replace (i + 1 - 1) with i by lia. reflexivity.
Qed.
Lemma alpha_sel_range d i p : 0 <= i -> 0 <= p -> 0 <= alpha_sel d i p < 8.
Proof. intros. unfold alpha_sel. pose proof (mixed_value_range 3 d i p ltac:(lia) ltac:(lia) ltac:(lia)) as R. change (2 ^ 3) with 8 in R.
  assert (all_below 8 (fun x => (0 <=? znth etc_alpha_code x) && (znth etc_alpha_code x <? 8)) = true) as C by (vm_compute; reflexivity).
  apply all_below_spec with (x := mixed_value 8 d i p) in C; [|lia]. apply andb_prop in C. destruct C as [C1 C2]. apply Z.leb_le in C1. apply Z.ltb_lt in C2. lia.
Qed.

Lemma alpha_etc_ok xs md d n c : 0 <= n -> prepare_decoder_tables m xs = Ok md -> (forall i k, 0 <= d i k < 64) ->
  Forall item_ok (selector_items xs d n) ->
  before c0 (flat_map item_bits (selector_items xs d n) ++ rest) c ->
  exists l c', for_range 0 n (fun i st =>
      let '(lin, pal, cd) := st in
      let* (lin, _, pal, cd) :=
        for_range 0 16 (fun p st =>
          let '(lin, group, pal, cd) := st in
          let* (s, (lin, group, cd)) := etc_alpha_value m md p (lin, group, cd) in
          let d := 3 * (p + 1) in
          let* pal := write_or_bits m pal (12 * i) d s in
          let d := d + 9 * (Z.land p 3 - Z.shiftr p 2) in
          let* pal := write_or_bits m pal (12 * i + 6) d s in
          Ok (lin, group, pal, cd)) (lin, 0, pal, cd) in
      Ok (lin, pal, cd)) (repeat 0 8, repeat 0 (Z.to_nat (n * 6 + 1)), c) = Ok (l, u_alpha_sels 12 d n, c').
Proof.
  intros Hn HP HD HI B. set (entry := fun i => etc_alpha_words (fun p => alpha_sel d i p) ++ etc_alpha_words (fun p => alpha_sel d i (turned p))).
  assert (u_alpha_sels 12 d n = flat_map entry (zrange 0 n) ++ [0]) as -> by reflexivity.
  assert (forall i, 0 <= i -> zlen (flat_map entry (zrange 0 i)) = i * 6) as LF by (intros i Hi; apply zlen_flat_map; [exact Hi|reflexivity]).
  match goal with |- exists a c', for_range 0 n ?g ?st0 = _ => destruct (for_range_inv (fun i (st : list Z * list Z * codec) =>
    let '(lin, pal, cd) := st in lin = lin_at d i 0 /\ pal = grown (flat_map entry (zrange 0 i)) (n * 6 + 1) /\ wordsb pal /\
    Forall item_ok (flat_map (fun i => map (fun j => Sym xs (d i j)) (zrange 0 8)) (zrange i n)) /\
    before c0 (flat_map item_bits (flat_map (fun i => map (fun j => Sym xs (d i j)) (zrange 0 8)) (zrange i n)) ++ rest) cd) 0 n g st0) as ([[l pal] c'] & E & Q) end.
  - exact Hn.
  - split; [reflexivity|]. split; [unfold grown; cbn [flat_map zrange app]; change (zlen (flat_map entry (zrange 0 0))) with 0; rewrite Z.sub_0_r; reflexivity|].
    split; [|split; [exact HI|exact B]]. apply Forall_forall. intros x Hx. apply repeat_spec in Hx. lia.
  - intros i [[lin pal] cd] Hi (-> & Ep & W & F & A). rewrite items_from in F, A by lia. apply Forall_app in F. destruct F as [F1 F2].
    assert (forall k, 0 <= k < 16 -> 0 <= alpha_sel d i k < 8) as RS by (intros; apply alpha_sel_range; lia).
    pose proof (LF i ltac:(lia)) as LFi. assert (zlen pal = n * 6 + 1) as LP by (rewrite Ep; apply zlen_grown; lia).
    set (id := fun k : Z => k). set (M1 := alpha_partial id (alpha_sel d i)). set (M2 := alpha_partial turned (alpha_sel d i)).
    destruct (etc_alpha_entry_ok xs md d i _ cd (fun p s pal => let* pal := write_or_bits m pal (12 * i) (3 * (p + 1)) s in write_or_bits m pal (12 * i + 6) (3 * (p + 1) + 9 * (Z.land p 3 - Z.shiftr p 2)) s)
      (fun p q => zlen q = zlen pal /\ wordsb q /\ forall j, 0 <= j -> wbyte q j = Z.lor (Z.lor (wbyte pal j) (mbyte (M1 p) (j - 12 * i))) (mbyte (M2 p) (j - (12 * i + 6)))) pal ltac:(lia) HP HD F1 A) as (g' & pal' & c1 & E1 & (L' & W' & V') & A').
    + intros p q Hp (Lq & Wq & Vq). destruct (write_or_bits_ok m q (12 * i) p (alpha_sel d i p) Wq ltac:(lia) Hp ltac:(apply RS; lia) ltac:(rewrite Lq, LP; lia)) as (q1 & -> & L1 & W1 & V1). cbn [bind].
      assert (3 * (p + 1) + 9 * (Z.land p 3 - Z.shiftr p 2) = 3 * (turned p + 1)) as ->.
      { change 3 with (Z.ones 2) at 2. rewrite Z.land_ones, shr_div by lia. change (2 ^ 2) with 4. unfold turned. dlia. }
      destruct (write_or_bits_ok m q1 (12 * i + 6) (turned p) (alpha_sel d i p) W1 ltac:(lia) ltac:(apply turned_range; exact Hp) ltac:(apply RS; lia) ltac:(rewrite L1, Lq, LP; lia)) as (q2 & -> & L2 & W2 & V2).
      exists q2. split; [reflexivity|]. split; [lia|]. split; [exact W2|]. intros j Hj. rewrite V2, V1, Vq by lia.
      unfold M1, M2. rewrite (alpha_partial_step id _ p (fun k Hk => conj Hk eq_refl) RS Hp), (alpha_partial_step turned _ p (fun k Hk => conj (turned_range k Hk) (turned_turned k Hk)) RS Hp).
      rewrite !mbyte_lor. change (id p) with p. set (a := wbyte pal j). set (b := mbyte _ (j - 12 * i)). set (e := mbyte (alpha_sel d i p * 8 ^ (15 - p)) _). set (b2 := mbyte _ (j - (12 * i + 6))). set (e2 := mbyte _ (j - (12 * i + 6))).
      rewrite <- !Z.lor_assoc. do 2 f_equal. rewrite (Z.lor_assoc b2 e e2), (Z.lor_comm b2 e), <- Z.lor_assoc. reflexivity.
    + split; [reflexivity|]. split; [exact W|]. intros j Hj. unfold M1, M2. rewrite (alpha_partial_start id) by (intros; unfold id; lia). rewrite (alpha_partial_start turned) by (intros; apply turned_range; lia). rewrite !mbyte_0, !Z.lor_0_r. reflexivity.
    + match goal with |- context [for_range 0 16 ?g _] => match type of E1 with for_range 0 16 ?g' _ = _ => rewrite (for_range_ext 0 16 g g') end end.
      2: { intros p [[[l0 g0] p0] cd0] Hp. destruct (etc_alpha_value m md p (l0, g0, cd0)) as [[s [[l1 g1] cd1]]| |]; cbn [bind]; try reflexivity. destruct (write_or_bits m p0 (12 * i) (3 * (p + 1)) s); reflexivity. }
      rewrite E1. cbn [bind]. eexists. split; [reflexivity|]. split; [apply lin_next; lia|]. split; [|split; [exact W'|split; [exact F2|exact A']]].
      rewrite flat_map_snoc by lia. assert (zlen (entry i) = 6) as L6 by reflexivity. assert (forall g, zlen (etc_alpha_words g) = 3) as L3 by reflexivity. apply grown_put; [lia|lia|]. intros j Hj. rewrite LFi, L6. rewrite <- Ep.
      rewrite (word_of_bytes pal' j W'), !V' by lia.
      assert (forall k, 0 <= M1 k < 2 ^ 48) as R1 by (intros; apply alpha_partial_range; [intros; unfold id; lia|exact RS]).
      assert (forall k, 0 <= M2 k < 2 ^ 48) as R2 by (intros; apply alpha_partial_range; [intros; apply turned_range; lia|exact RS]).
      assert (forall t, 0 <= t < n * 6 + 1 -> i * 6 <= t -> wbyte pal (2 * t) = 0 /\ wbyte pal (2 * t + 1) = 0) as Z0.
      { intros t Ht Ht2. rewrite wbyte_even, wbyte_odd, Ep, znth_grown by lia. destruct (Z.ltb_spec t (zlen (flat_map entry (zrange 0 i)))); [lia|]. split; reflexivity. }
      destruct (Z.leb_spec (i * 6) j) as [J1|J1]; cbn [andb].
      * destruct (Z0 j ltac:(lia) J1) as [-> ->]. rewrite !Z.lor_0_l. unfold entry. destruct (Z.ltb_spec j (i * 6 + 6)) as [J2|J2].
        -- destruct (Z.lt_ge_cases (j - i * 6) 3) as [J3|J3].
           ++ rewrite (mbyte_out (M2 16)), (mbyte_out (M2 16)) by (auto; lia). rewrite !Z.lor_0_r. rewrite znth_app1 by (rewrite L3; lia).
              pose proof (alpha_partial_words id (alpha_sel d i) (j - i * 6) ltac:(intros; unfold id; lia) ltac:(lia)) as AW. cbv zeta in AW. unfold id in AW at 1. rewrite AW. fold M1. replace (2 * j - 12 * i) with (2 * (j - i * 6)) by lia. replace (2 * j + 1 - 12 * i) with (2 * (j - i * 6) + 1) by lia. reflexivity.
           ++ rewrite (mbyte_out (M1 16)), (mbyte_out (M1 16)) by (auto; lia). rewrite !Z.lor_0_l. rewrite znth_app2 by (rewrite L3; lia). rewrite L3.
              pose proof (alpha_partial_words turned (alpha_sel d i) (j - i * 6 - 3) ltac:(intros; apply turned_range; lia) ltac:(lia)) as AW. cbv zeta in AW. rewrite AW. fold M2. replace (2 * j - (12 * i + 6)) with (2 * (j - i * 6 - 3)) by lia. replace (2 * j + 1 - (12 * i + 6)) with (2 * (j - i * 6 - 3) + 1) by lia. reflexivity.
        -- rewrite !(mbyte_out (M1 16)), !(mbyte_out (M2 16)) by (auto; lia). cbn. rewrite Ep, znth_grown by lia. destruct (Z.ltb_spec j (zlen (flat_map entry (zrange 0 i)))); [lia|reflexivity].
      * rewrite !(mbyte_out (M1 16)), !(mbyte_out (M2 16)) by (auto; lia). rewrite !Z.lor_0_r. symmetry. apply word_of_bytes. exact W.
  - destruct Q as (_ & -> & _). exists l, c'. rewrite E. do 3 f_equal. unfold grown. rewrite LF by lia. replace (n * 6 + 1 - n * 6) with 1 by lia. reflexivity.
Qed.
Lemma alpha_etcs_ok xs md d n c : 0 <= n -> prepare_decoder_tables m xs = Ok md -> (forall i k, 0 <= d i k < 64) ->
  Forall item_ok (selector_items xs d n) ->
  before c0 (flat_map item_bits (selector_items xs d n) ++ rest) c ->
  exists l c', for_range 0 n (fun i st =>
      let '(lin, pal, cd) := st in
      let* (lin, _, pal, cd) :=
        for_range 0 16 (fun p st =>
          let '(lin, group, pal, cd) := st in
          let* (s, (lin, group, cd)) := etc_alpha_value m md p (lin, group, cd) in
          let d := 3 * (p + 1) + 9 * (Z.land p 3 - Z.shiftr p 2) in
          let* pal := write_or_bits m pal (6 * i) d s in
          Ok (lin, group, pal, cd)) (lin, 0, pal, cd) in
      Ok (lin, pal, cd)) (repeat 0 8, repeat 0 (Z.to_nat (n * 3 + 1)), c) = Ok (l, u_alpha_sels 14 d n, c').
Proof.
  intros Hn HP HD HI B. set (entry := fun i => etc_alpha_words (fun p => alpha_sel d i (turned p))).
  assert (u_alpha_sels 14 d n = flat_map entry (zrange 0 n) ++ [0]) as -> by reflexivity.
  assert (forall i, 0 <= i -> zlen (flat_map entry (zrange 0 i)) = i * 3) as LF by (intros i Hi; apply zlen_flat_map; [exact Hi|reflexivity]).
  match goal with |- exists a c', for_range 0 n ?g ?st0 = _ => destruct (for_range_inv (fun i (st : list Z * list Z * codec) =>
    let '(lin, pal, cd) := st in lin = lin_at d i 0 /\ pal = grown (flat_map entry (zrange 0 i)) (n * 3 + 1) /\ wordsb pal /\
    Forall item_ok (flat_map (fun i => map (fun j => Sym xs (d i j)) (zrange 0 8)) (zrange i n)) /\
    before c0 (flat_map item_bits (flat_map (fun i => map (fun j => Sym xs (d i j)) (zrange 0 8)) (zrange i n)) ++ rest) cd) 0 n g st0) as ([[l pal] c'] & E & Q) end.
  - exact Hn.
  - split; [reflexivity|]. split; [unfold grown; cbn [flat_map zrange app]; change (zlen (flat_map entry (zrange 0 0))) with 0; rewrite Z.sub_0_r; reflexivity|].
    split; [|split; [exact HI|exact B]]. apply Forall_forall. intros x Hx. apply repeat_spec in Hx. lia.
  - intros i [[lin pal] cd] Hi (-> & Ep & W & F & A). rewrite items_from in F, A by lia. apply Forall_app in F. destruct F as [F1 F2].
    assert (forall k, 0 <= k < 16 -> 0 <= alpha_sel d i k < 8) as RS by (intros; apply alpha_sel_range; lia).
    pose proof (LF i ltac:(lia)) as LFi. assert (zlen pal = n * 3 + 1) as LP by (rewrite Ep; apply zlen_grown; lia).
    set (M2 := alpha_partial turned (alpha_sel d i)).
    destruct (etc_alpha_entry_ok xs md d i _ cd (fun p s pal => write_or_bits m pal (6 * i) (3 * (p + 1) + 9 * (Z.land p 3 - Z.shiftr p 2)) s)
      (fun p q => zlen q = zlen pal /\ wordsb q /\ forall j, 0 <= j -> wbyte q j = Z.lor (wbyte pal j) (mbyte (M2 p) (j - 6 * i))) pal ltac:(lia) HP HD F1 A) as (g' & pal' & c1 & E1 & (L' & W' & V') & A').
    + intros p q Hp (Lq & Wq & Vq).
      assert (3 * (p + 1) + 9 * (Z.land p 3 - Z.shiftr p 2) = 3 * (turned p + 1)) as ->.
      { change 3 with (Z.ones 2) at 2. rewrite Z.land_ones, shr_div by lia. change (2 ^ 2) with 4. unfold turned. dlia. }
      destruct (write_or_bits_ok m q (6 * i) (turned p) (alpha_sel d i p) Wq ltac:(lia) ltac:(apply turned_range; exact Hp) ltac:(apply RS; lia) ltac:(rewrite Lq, LP; lia)) as (q2 & -> & L2 & W2 & V2).
      exists q2. split; [reflexivity|]. split; [lia|]. split; [exact W2|]. intros j Hj. rewrite V2, Vq by lia.
      unfold M2. rewrite (alpha_partial_step turned _ p (fun k Hk => conj (turned_range k Hk) (turned_turned k Hk)) RS Hp).
      rewrite mbyte_lor, Z.lor_assoc. reflexivity.
    + split; [reflexivity|]. split; [exact W|]. intros j Hj. unfold M2. rewrite (alpha_partial_start turned) by (intros; apply turned_range; lia). rewrite mbyte_0, Z.lor_0_r. reflexivity.
    + cbv zeta.
      rewrite E1. cbn [bind]. eexists. split; [reflexivity|]. split; [apply lin_next; lia|]. split; [|split; [exact W'|split; [exact F2|exact A']]].
      rewrite flat_map_snoc by lia. assert (zlen (entry i) = 3) as L6 by reflexivity. apply grown_put; [lia|lia|]. intros j Hj. rewrite LFi, L6. rewrite <- Ep.
      rewrite (word_of_bytes pal' j W'), !V' by lia.
      assert (forall k, 0 <= M2 k < 2 ^ 48) as R2 by (intros; apply alpha_partial_range; [intros; apply turned_range; lia|exact RS]).
      assert (forall t, 0 <= t < n * 3 + 1 -> i * 3 <= t -> wbyte pal (2 * t) = 0 /\ wbyte pal (2 * t + 1) = 0) as Z0.
      { intros t Ht Ht2. rewrite wbyte_even, wbyte_odd, Ep, znth_grown by lia. destruct (Z.ltb_spec t (zlen (flat_map entry (zrange 0 i)))); [lia|]. split; reflexivity. }
      destruct (Z.leb_spec (i * 3) j) as [J1|J1]; cbn [andb].
      * destruct (Z0 j ltac:(lia) J1) as [-> ->]. rewrite !Z.lor_0_l. unfold entry. destruct (Z.ltb_spec j (i * 3 + 3)) as [J2|J2].
        -- pose proof (alpha_partial_words turned (alpha_sel d i) (j - i * 3) ltac:(intros; apply turned_range; lia) ltac:(lia)) as AW. cbv zeta in AW. rewrite AW. fold M2.
           replace (2 * j - 6 * i) with (2 * (j - i * 3)) by lia. replace (2 * j + 1 - 6 * i) with (2 * (j - i * 3) + 1) by lia. reflexivity.
        -- rewrite !(mbyte_out (M2 16)) by (auto; lia). cbn. rewrite Ep, znth_grown by lia. destruct (Z.ltb_spec j (zlen (flat_map entry (zrange 0 i)))); [lia|reflexivity].
      * rewrite !(mbyte_out (M2 16)) by (auto; lia). rewrite !Z.lor_0_r. symmetry. apply word_of_bytes. exact W.
  - destruct Q as (_ & -> & _). exists l, c'. rewrite E. do 3 f_equal. unfold grown. rewrite LF by lia. replace (n * 3 + 1 - n * 3) with 1 by lia. reflexivity.
Qed.

End Palettes.
