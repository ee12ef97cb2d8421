(** * PVRTC: colours and modulation values of one block *)
From Verif Require Import Base BaseLemmas BitLemmas ModelPvrtc SpecImage SpecPvrtc.

Lemma land_shifted x k n : 0 <= k -> 0 <= n -> Z.land x (2 ^ k * (2 ^ n - 1)) = 2 ^ k * (x / 2 ^ k mod 2 ^ n).
Proof.
  intros Hk Hn. rewrite !(Z.mul_comm (2 ^ k)), <- !Z.shiftl_mul_pow2, <- Z.shiftr_div_pow2 by lia.
  replace (2 ^ n - 1) with (Z.ones n) by (rewrite Z.ones_equiv; lia). rewrite <- Z.land_ones by lia.
  apply Z.bits_inj'. intros j Hj. rewrite Z.land_spec, !Z.shiftl_spec by lia.
  destruct (Z.lt_ge_cases j k).
  - rewrite !(Z.testbit_neg_r _ (j - k)) by lia. apply andb_false_r.
  - rewrite Z.land_spec, Z.shiftr_spec by lia. do 2 f_equal. lia.
Qed.

Lemma bits_range v lo n : 0 <= lo -> 0 <= n -> 0 <= bits_at v lo n < 2 ^ n.
Proof. intros. apply Z.mod_pos_bound, Z.pow_pos_nonneg; lia. Qed.

Lemma land_1 x : Z.land x 1 = x mod 2.
Proof. change 1 with (2 ^ 1 - 1) at 1. rewrite land_mask by lia. reflexivity. Qed.

Section Colors.
Context (b : list Z) (Hb : bytes b) (Hl : 8 <= zlen b).

Lemma word_a_range : 0 <= pvr_word_a b < 65536.
Proof. unfold pvr_word_a. pose proof (bytes_znth b 4 Hb). pose proof (bytes_znth b 5 Hb). lia. Qed.
Lemma word_b_range : 0 <= pvr_word_b b < 65536.
Proof. unfold pvr_word_b. pose proof (bytes_znth b 6 Hb). pose proof (bytes_znth b 7 Hb). lia. Qed.

Lemma top_bit v : 0 <= v < 65536 -> negb (Z.land v 0x8000 =? 0) = (bits_at v 15 1 =? 1).
Proof.
  intros H. change 0x8000 with (2 ^ 15). rewrite land_pow2 by lia. unfold bits_at. change (2 ^ 1) with 2.
  pose proof (Z.mod_pos_bound (v / 2 ^ 15) 2 ltac:(lia)).
  destruct (Z.eqb_spec (v / 2 ^ 15 mod 2 * 2 ^ 15) 0), (Z.eqb_spec (v / 2 ^ 15 mod 2) 1); auto; lia.
Qed.

(** The bit tricks of get_texel_colors. *)
Lemma field5 v k : 0 <= k -> u8 (Z.land (Z.shiftr v k) 0x1f) = bits_at v k 5.
Proof.
  intros. rewrite shr_div by lia. change 0x1f with (2 ^ 5 - 1). rewrite land_mask by lia.
  unfold u8, bits_at. apply Z.mod_small. pose proof (Z.mod_pos_bound (v / 2 ^ k) (2 ^ 5)). lia.
Qed.
Lemma field4 v k : 0 <= k -> u8 (Z.lor (Z.land (Z.shiftr v k) 0x1e) (Z.land (Z.shiftr v (k + 4)) 1)) = widen4 (bits_at v (k + 1) 4).
Proof.
  intros. rewrite !shr_div by lia. change 0x1e with (2 ^ 1 * (2 ^ 4 - 1)). rewrite land_shifted by lia.
  rewrite land_1.
  rewrite (Z.mul_comm (2 ^ 1)), lor_add by (pose proof (Z.mod_pos_bound (v / 2 ^ (k + 4)) 2 ltac:(lia)); lia).
  unfold widen4, bits_at. rewrite !div_pow_split by lia. change (2 ^ 1) with 2. change (2 ^ 4) with 16.
  generalize (v / 2 ^ k). intros z. unfold u8. change (2 ^ 8) with 256. dlia.
Qed.
Lemma field4_0 v : 0 <= v < 65536 ->
  u8 (Z.lor (Z.land v 0x1e) (Z.land (Z.shiftr v 4) 1)) = widen4 (bits_at v 1 4) /\
  u8 (Z.lor (Z.land (u16 (Z.shiftl v 1)) 0x1e) (Z.land (Z.shiftr v 3) 1)) = widen4 (bits_at v 0 4) /\
  u8 (Z.lor (Z.land (u16 (Z.shiftl v 1)) 0x1c) (Z.land (Z.shiftr v 2) 3)) = widen3 (bits_at v 1 3) /\
  u8 (Z.land v 0x1f) = bits_at v 0 5 /\
  u8 (Z.land (Z.shiftr v 11) 0xe) = 2 * bits_at v 12 3.
Proof.
  intros H. rewrite !shr_div, shl_mul by lia. change 0x1e with (2 ^ 1 * (2 ^ 4 - 1)). change 0x1c with (2 ^ 2 * (2 ^ 3 - 1)).
  change 0xe with (2 ^ 1 * (2 ^ 3 - 1)). rewrite !land_shifted by lia.
  assert (forall x, Z.land x 3 = x mod 4) as L3 by (intros x; change 3 with (2 ^ 2 - 1); rewrite land_mask by lia; reflexivity).
  rewrite L3. clear L3. change 0x1f with (2 ^ 5 - 1).
  rewrite !land_mask by lia.
  rewrite !land_1.
  rewrite (Z.mul_comm (2 ^ 2)), !(Z.mul_comm (2 ^ 1)). rewrite !lor_add by (change (2 ^ 1) with 2; change (2 ^ 2) with 4; dlia).
  unfold widen4, widen3, bits_at, u8, u16. change (2 ^ 0) with 1. rewrite Z.div_1_r.
  change (2 ^ 16) with 65536. change (2 ^ 1) with 2. change (2 ^ 2) with 4. change (2 ^ 3) with 8. change (2 ^ 4) with 16.
  change (2 ^ 5) with 32. change (2 ^ 8) with 256. change (2 ^ 11) with 2048. change (2 ^ 12) with 4096.
  repeat split. dlia. dlia. dlia. dlia. dlia.
Qed.

Definition color_a : list Z := [pvr_a b 0; pvr_a b 1; pvr_a b 2; pvr_a b 3].
Definition color_b : list Z := [pvr_b b 0; pvr_b b 1; pvr_b b 2; pvr_b b 3].

Lemma colors_ok info : get_texel_colors b info = Ok (mkT color_a color_b (tw info) (tp info)).
Proof.
  unfold get_texel_colors. rewrite !slice_znth by lia. cbn [bind].
  change (zrange 4 6) with [4; 5]. change (zrange 6 8) with [6; 7]. cbn [map le_bytes].
  replace (znth b 4 + 256 * (znth b 5 + 256 * 0)) with (pvr_word_a b) by (unfold pvr_word_a; lia).
  replace (znth b 6 + 256 * (znth b 7 + 256 * 0)) with (pvr_word_b b) by (unfold pvr_word_b; lia).
  pose proof word_a_range as Ra. pose proof word_b_range as Rb.
  rewrite !top_bit by auto. unfold color_a, color_b, pvr_a, pvr_b.
  cbn [Z.eqb Pos.eqb].
  destruct (field4_0 (pvr_word_a b) Ra) as (A1 & _ & A3 & _ & A5).
  destruct (field4_0 (pvr_word_b b) Rb) as (_ & B2 & _ & B4 & B5).
  rewrite !field5 by lia. rewrite A1, A3, A5, B2, B4, B5.
  change 11 with (7 + 4). rewrite !(field4 _ 7), <- (field4 _ 3), <- (field4 _ 3) by lia.
  change (7 + 1) with 8. change (3 + 4) with 7.
  destruct (bits_at (pvr_word_a b) 15 1 =? 1), (bits_at (pvr_word_b b) 15 1 =? 1); reflexivity.
Qed.

Lemma widen4_range x : 0 <= x < 2 ^ 4 -> 0 <= widen4 x <= 31.
Proof. unfold widen4. change (2 ^ 4) with 16. intros. dlia. Qed.
Lemma widen3_range x : 0 <= x < 2 ^ 3 -> 0 <= widen3 x <= 31.
Proof. unfold widen3. change (2 ^ 3) with 8. intros. dlia. Qed.
Lemma pvr_a_range c : 0 <= pvr_a b c <= (if c =? 3 then 15 else 31) \/ c < 0 \/ 3 < c.
Proof.
  destruct (Z.lt_ge_cases c 0); [auto|]. destruct (Z.lt_ge_cases 3 c); [auto|]. left.
  pose proof (bits_range (pvr_word_a b)) as R. unfold pvr_a. cbv zeta.
  assert (c = 0 \/ c = 1 \/ c = 2 \/ c = 3) as [-> |[-> |[-> | ->]]] by lia; cbn [Z.eqb Pos.eqb];
    destruct (_ =? 1); try apply widen4_range; try apply widen3_range; try (apply R; lia);
    try (match goal with |- context [bits_at _ ?k ?n] => specialize (R k n ltac:(lia) ltac:(lia)) end); lia.
Qed.
Lemma pvr_b_range c : 0 <= pvr_b b c <= (if c =? 3 then 15 else 31) \/ c < 0 \/ 3 < c.
Proof.
  destruct (Z.lt_ge_cases c 0); [auto|]. destruct (Z.lt_ge_cases 3 c); [auto|]. left.
  pose proof (bits_range (pvr_word_b b)) as R. unfold pvr_b. cbv zeta.
  assert (c = 0 \/ c = 1 \/ c = 2 \/ c = 3) as [-> |[-> |[-> | ->]]] by lia; cbn [Z.eqb Pos.eqb];
    destruct (_ =? 1); try apply widen4_range; try apply widen3_range; try (apply R; lia);
    try (match goal with |- context [bits_at _ ?k ?n] => specialize (R k n ltac:(lia) ltac:(lia)) end); lia.
Qed.

(** ** Modulation *)
Lemma mod_range : 0 <= pvr_mod b < 2 ^ 32.
Proof.
  unfold pvr_mod. pose proof (bytes_znth b 0 Hb). pose proof (bytes_znth b 1 Hb).
  pose proof (bytes_znth b 2 Hb). pose proof (bytes_znth b 3 Hb). lia.
Qed.
Lemma le_mod : le_bytes (map (znth b) (zrange 0 4)) = pvr_mod b.
Proof. change (zrange 0 4) with [0; 1; 2; 3]. cbn [map le_bytes]. unfold pvr_mod. lia. Qed.
Lemma odd_bit x : negb (Z.land x 1 =? 0) = (bits_at x 0 1 =? 1).
Proof.
  change 1 with (2 ^ 0) at 1. rewrite land_pow2 by lia. unfold bits_at. change (2 ^ 0) with 1. change (2 ^ 1) with 2.
  rewrite Z.div_1_r, Z.mul_1_r. pose proof (Z.mod_pos_bound x 2 ltac:(lia)).
  destruct (Z.eqb_spec (x mod 2) 0), (Z.eqb_spec (x mod 2) 1); auto; lia.
Qed.

Lemma idx_std q : 0 <= q < 4 -> idx PVRTC1_STANDARD_WEIGHT q = Ok (weight_std q).
Proof. intros H. enum q H; reflexivity. Qed.
Lemma idx_pt q : 0 <= q < 4 -> idx PVRTC1_PUNCHTHROUGH_WEIGHT q = Ok (weight_pt q).
Proof. intros H. enum q H; reflexivity. Qed.
Lemma weight_range q : 0 <= q < 4 -> 0 <= weight_std q <= 8 /\ 0 <= weight_pt q <= 8.
Proof. intros H. enum q H; vm_compute; repeat split; discriminate. Qed.

Lemma mod_step v i : 0 <= i -> Z.land (v / 2 ^ (2 * i)) 3 = bits_at v (2 * i) 2 /\
  v / 2 ^ (2 * i) / 2 ^ 2 = v / 2 ^ (2 * (i + 1)).
Proof.
  intros. split.
  - change 3 with (2 ^ 2 - 1). rewrite land_mask by lia. reflexivity.
  - rewrite <- div_pow_split by lia. do 2 f_equal. lia.
Qed.

(** What is known of the info of a 4bpp block. *)
Definition info4 (t : tinfo) : Prop :=
  ta t = color_a /\ tb t = color_b /\ zlen (tw t) = 32 /\
  (forall j, 0 <= j < 16 -> znth (tw t) j = mod4 b j) /\
  (forall j, 0 <= j < 16 -> tp t / 2 ^ j mod 2 = if punch4 b j then 1 else 0).

Lemma mod4_range j : 0 <= j -> 0 <= mod4 b j <= 8.
Proof.
  intros Hj. unfold mod4. pose proof (bits_range (pvr_mod b) (2 * j) 2 ltac:(lia) ltac:(lia)) as R. change (2 ^ 2) with 4 in R.
  destruct (_ =? 1); apply weight_range; exact R.
Qed.

Lemma weights4_ok m info : ta info = color_a -> tb info = color_b -> zlen (tw info) = 32 ->
  exists t, get_texel_weights_4bpp m b info = Ok t /\ info4 t.
Proof.
  intros Ha Hbb Hw. unfold get_texel_weights_4bpp. rewrite idx_ok by lia. cbn [bind].
  rewrite slice_znth by lia. cbn [bind]. rewrite le_mod, odd_bit.
  fold (pvr_mode b). pose proof mod_range as Mr. set (v := pvr_mod b) in *.
  destruct (Z.eqb_spec (pvr_mode b) 1) as [E|E].
  - match goal with |- context [for_range ?a ?n ?f ?s] =>
      destruct (for_range_inv (fun i st => let '(w, p, mb) := st in
        mb = v / 2 ^ (2 * i) /\ zlen w = 32 /\ 0 <= p < 2 ^ i /\
        (forall j, 0 <= j < i -> znth w j = mod4 b j) /\
        (forall j, 0 <= j < i -> p / 2 ^ j mod 2 = if punch4 b j then 1 else 0)) a n f s)
        as ([[w p] mb] & EQ & _ & Lw & _ & Ww & Wp) end.
    + lia.
    + cbn [Z.mul]. change (2 ^ 0) with 1. rewrite Z.div_1_r. split; [auto|]. split; [auto|]. split; [lia|]. split; intros; lia.
    + intros i [[w p] mb] Hi (-> & Lw & Hp & Ww & Wp).
      destruct (mod_step v i ltac:(lia)) as [S1 S2].
      pose proof (bits_range v (2 * i) 2 ltac:(lia) ltac:(lia)) as R. change (2 ^ 2) with 4 in R.
      rewrite S1. rewrite idx_pt by exact R. cbn [bind].
      rewrite upd_ok by lia. cbn [bind].
      assert (bits_at v (2 * i) 2 = mod4_index b i) as EI by reflexivity.
      assert (0 < 2 ^ i) by (apply Z.pow_pos_nonneg; lia).
      assert (2 ^ i < 2 ^ 32) by (apply Z.pow_lt_mono_r; lia).
      set (p' := if bits_at v (2 * i) 2 =? 2 then p + 2 ^ i else p).
      match goal with |- context [bind (if ?c then ?x else ?y) _] =>
        assert ((if c then x else y) = Ok p') as -> end.
      { unfold p'. destruct (_ =? 2); [|reflexivity]. rewrite ushl_ok by lia. cbn [bind].
        rewrite Z.mul_1_l, Z.mod_small by lia. apply (f_equal Ok).
        rewrite <- (Z.mul_1_l (2 ^ i)). rewrite lor_comm_add; lia. }
      cbn [bind]. rewrite ushr_ok by lia. cbn [bind]. rewrite S2.
      eexists; split; [reflexivity|]. split; [reflexivity|]. split; [rewrite zlen_replace_nth; auto|].
      rewrite Z.pow_add_r, Z.pow_1_r by lia.
      split; [unfold p'; destruct (_ =? 2); lia|]. split.
      * intros j Hj. rewrite znth_replace by lia. destruct (Z.eqb_spec j i) as [->|N].
        -- unfold mod4. rewrite E. cbn [Z.eqb Pos.eqb]. rewrite EI. reflexivity.
        -- apply Ww; lia.
      * intros j Hj. unfold p'. destruct (Z.eq_dec j i) as [->|N].
        -- unfold punch4. rewrite E. cbn [Z.eqb Pos.eqb andb]. rewrite <- EI. destruct (_ =? 2).
           ++ replace (p + 2 ^ i) with (1 * 2 ^ i + p) by lia. rewrite Z.div_add_l by lia. rewrite Z.div_small by lia. reflexivity.
           ++ rewrite Z.div_small by lia. reflexivity.
        -- rewrite <- Wp by lia. destruct (_ =? 2); [|reflexivity].
           replace (2 ^ i) with (2 ^ (i - j - 1) * 2 * 2 ^ j).
           2:{ rewrite <- (Z.pow_1_r 2) at 2. rewrite <- !Z.pow_add_r by lia. f_equal. lia. }
           rewrite Z.div_add by (apply Z.pow_nonzero; lia). apply Z.mod_add. lia.
    + rewrite EQ. cbn [bind]. eexists; split; [reflexivity|]. unfold info4. cbn [ta tb tw tp]. auto.
  - match goal with |- context [for_range ?a ?n ?f ?s] =>
      destruct (for_range_inv (fun i st => let '(w, mb) := st in
        mb = v / 2 ^ (2 * i) /\ zlen w = 32 /\ (forall j, 0 <= j < i -> znth w j = mod4 b j)) a n f s)
        as ([w mb] & EQ & _ & Lw & Ww) end.
    + lia.
    + cbn [Z.mul]. change (2 ^ 0) with 1. rewrite Z.div_1_r. split; [auto|]. split; [auto|]. intros; lia.
    + intros i [w mb] Hi (-> & Lw & Ww).
      destruct (mod_step v i ltac:(lia)) as [S1 S2].
      pose proof (bits_range v (2 * i) 2 ltac:(lia) ltac:(lia)) as R. change (2 ^ 2) with 4 in R.
      rewrite S1. rewrite idx_std by exact R. cbn [bind].
      rewrite upd_ok by lia. cbn [bind]. rewrite ushr_ok by lia. cbn [bind]. rewrite S2.
      eexists; split; [reflexivity|]. split; [reflexivity|]. split; [rewrite zlen_replace_nth; auto|].
      intros j Hj. rewrite znth_replace by lia. destruct (Z.eqb_spec j i) as [->|N]; [|apply Ww; lia].
      unfold mod4. destruct (Z.eqb_spec (pvr_mode b) 1); [contradiction|]. reflexivity.
    + rewrite EQ. cbn [bind]. eexists; split; [reflexivity|]. unfold info4. cbn [ta tb tw tp].
      split; [auto|]. split; [auto|]. split; [auto|]. split; [auto|]. intros j Hj.
      unfold punch4. destruct (Z.eqb_spec (pvr_mode b) 1); [contradiction|]. cbn [andb]. rewrite Z.div_0_l; [reflexivity|].
      apply Z.pow_nonzero; lia.
Qed.

(** ** 2bpp *)
Definition even2 (j : Z) : bool := (j / 8 + j mod 8) mod 2 =? 0.
Definition order (j : Z) : Z := 4 * (j / 8) + (j mod 8) / 2.
Definition fill_flag : Z :=
  if bits_at (pvr_mod b) 0 1 =? 1 then if bits_at (pvr_mod b) 20 1 =? 1 then -1 else -2 else -3.
Definition info2 (t : tinfo) : Prop :=
  ta t = color_a /\ tb t = color_b /\ zlen (tw t) = 32 /\
  (forall j, 0 <= j < 32 -> znth (tw t) j = if (pvr_mode b =? 1) && negb (even2 j) then fill_flag else stored2 b j) /\
  tp t = 0.

Lemma order_sweep : all_below 4 (fun y => all_below 4 (fun x => all_below 32 (fun j =>
  Bool.eqb (j =? 8 * y + y mod 2 + 2 * x) (even2 j && (order j =? 4 * y + x))))) = true.
Proof. vm_cast_no_check (eq_refl true). Qed.
Lemma order_at y x j : 0 <= y < 4 -> 0 <= x < 4 -> 0 <= j < 32 ->
  (j =? 8 * y + y mod 2 + 2 * x) = even2 j && (order j =? 4 * y + x).
Proof.
  intros Hy Hx Hj. pose proof (all_below_spec _ _ order_sweep y Hy) as A. cbv beta in A.
  pose proof (all_below_spec _ _ A x Hx) as B. cbv beta in B.
  pose proof (all_below_spec _ _ B j Hj) as C. apply Bool.eqb_prop in C. exact C.
Qed.

Lemma stored2_range j : 0 <= j < 32 -> 0 <= stored2 b j <= 8.
Proof.
  intros Hj. unfold stored2. cbv zeta. set (q := 4 * (j / 8) + j mod 8 / 2). assert (0 <= q) by (unfold q; dlia).
  pose proof (bits_range (pvr_mod b)) as R.
  destruct (_ =? 1).
  - destruct (_ || _).
    + specialize (R (2 * q + 1) 1 ltac:(lia) ltac:(lia)). lia.
    + apply weight_range. specialize (R (2 * q) 2 ltac:(lia) ltac:(lia)). exact R.
  - specialize (R j 1 ltac:(lia) ltac:(lia)). lia.
Qed.

Lemma one_bit q : 0 <= q < 4 -> Z.land (weight_std q + 3) 8 = 8 * (q / 2).
Proof. intros H. enum q H; reflexivity. Qed.
Lemma high_of_two v k : 0 <= k -> bits_at v k 2 / 2 = bits_at v (k + 1) 1.
Proof.
  intros. unfold bits_at. rewrite div_pow_split by lia. change (2 ^ 2) with 4. change (2 ^ 1) with 2.
  generalize (v / 2 ^ k). intros. dlia.
Qed.

Lemma weights2_ok m info : ta info = color_a -> tb info = color_b -> tw info = repeat 0 32 ->
  exists t, get_texel_weights_2bpp m b info = Ok t /\ info2 t.
Proof.
  intros Ha Hbb Hw. unfold get_texel_weights_2bpp. rewrite idx_ok by lia. cbn [bind].
  rewrite slice_znth by lia. cbn [bind]. rewrite le_mod, odd_bit.
  fold (pvr_mode b). pose proof mod_range as Mr.
  assert (bits_at (znth b 0) 0 1 = bits_at (pvr_mod b) 0 1) as E0.
  { unfold bits_at, pvr_mod. change (2 ^ 0) with 1. rewrite !Z.div_1_r. change (2 ^ 1) with 2.
    change (2 ^ 8) with 256. change (2 ^ 16) with 65536. change (2 ^ 24) with 16777216. dlia. }
  assert (negb (Z.land (znth b 2) 0x10 =? 0) = (bits_at (pvr_mod b) 20 1 =? 1)) as E20.
  { change 0x10 with (2 ^ 4). rewrite land_pow2 by lia.
    assert (bits_at (pvr_mod b) 20 1 = znth b 2 / 2 ^ 4 mod 2) as ->.
    { unfold bits_at, pvr_mod. change (2 ^ 1) with 2. change (2 ^ 4) with 16. change (2 ^ 20) with 1048576.
      change (2 ^ 8) with 256. change (2 ^ 16) with 65536. change (2 ^ 24) with 16777216.
      pose proof (bytes_znth b 0 Hb). pose proof (bytes_znth b 1 Hb).
      pose proof (bytes_znth b 2 Hb). pose proof (bytes_znth b 3 Hb). dlia. }
    pose proof (Z.mod_pos_bound (znth b 2 / 2 ^ 4) 2 ltac:(lia)).
    destruct (Z.eqb_spec (znth b 2 / 2 ^ 4 mod 2 * 2 ^ 4) 0), (Z.eqb_spec (znth b 2 / 2 ^ 4 mod 2) 1); auto; lia. }
  rewrite Hw. set (v := pvr_mod b) in *.
  destruct (Z.eqb_spec (pvr_mode b) 1) as [E|E].
  - rewrite idx_ok by lia. cbn [bind]. rewrite !odd_bit, E0.
    match goal with |- context [bind (if ?c then ?x else ?y) _] =>
      assert ((if c then x else y) = Ok fill_flag) as -> end.
    { unfold fill_flag. fold v. destruct (bits_at v 0 1 =? 1); [|reflexivity].
      rewrite idx_ok by lia. cbn [bind]. rewrite E20. destruct (_ =? 1); reflexivity. }
    cbn [bind].
    match goal with |- context [bind (for_range 0 4 ?f (repeat 0 32, 0)) _] =>
      assert (for_range 0 4 f (repeat 0 32, 0) = Ok (tab 32 (fun j => if even2 j then 0 else fill_flag), 32)) as ->
        by (generalize fill_flag; intros ff; destruct m; reflexivity) end.
    cbn [bind].
    match goal with |- context [bind (for_range 0 4 ?f ?s) _] =>
      destruct (for_range_inv (fun y st => let '(w, i, mb) := st in
        i = 8 * y + 1 - y mod 2 /\ mb = v / 2 ^ (8 * y) /\ zlen w = 32 /\
        (forall j, 0 <= j < 32 -> znth w j =
           if even2 j then (if order j <? 4 * y then weight_std (bits_at v (2 * order j) 2) else 0) else fill_flag)) 0 4 f s)
        as ([[w i] mb] & EQ & _ & _ & Lw & Ww) end.
    + lia.
    + change (8 * 0) with 0. change (2 ^ 0) with 1. rewrite Z.div_1_r. change (4 * 0) with 0. split; [reflexivity|]. split; [auto|].
      split; [apply zlen_tab|]. intros j Hj. rewrite znth_tab by lia.
      destruct (even2 j); [|reflexivity]. destruct (Z.ltb_spec (order j) 0); [|reflexivity]. exfalso. revert H. unfold order. clear - Hj. dlia.
    + intros y [[w i] mb] Hy (-> & -> & Lw & Ww). cbv beta iota.
      match goal with |- context [bind (if ?c then ?x else ?z) _] =>
        assert ((if c then x else z) = Ok (8 * y + y mod 2)) as -> end.
      { rewrite land_1. pose proof (Z.mod_pos_bound y 2 ltac:(lia)). destruct (Z.eqb_spec (y mod 2) 0); rewrite ua_ok by lia; f_equal; lia. }
      cbn [bind].
      match goal with |- context [for_range 0 4 ?f ?s] =>
        destruct (for_range_inv (fun x st => let '(w, i, mb) := st in
          i = 8 * y + y mod 2 + 2 * x /\ mb = v / 2 ^ (2 * (4 * y + x)) /\ zlen w = 32 /\
          (forall j, 0 <= j < 32 -> znth w j =
             if even2 j then (if order j <? 4 * y + x then weight_std (bits_at v (2 * order j) 2) else 0) else fill_flag)) 0 4 f s)
          as ([[w' i'] mb'] & EQ' & Hi' & Hmb' & Lw' & Ww') end.
      * lia.
      * rewrite !Z.add_0_r. replace (2 * (4 * y)) with (8 * y) by lia. auto.
      * intros x [[w' i'] mb'] Hx (-> & -> & Lw' & Ww'). cbv beta iota.
        pose proof (Z.mod_pos_bound y 2 ltac:(lia)).
        destruct (mod_step v (4 * y + x) ltac:(lia)) as [S1 S2].
        pose proof (bits_range v (2 * (4 * y + x)) 2 ltac:(lia) ltac:(lia)) as R. change (2 ^ 2) with 4 in R.
        rewrite S1. rewrite idx_std by exact R. cbn [bind].
        rewrite upd_ok by lia. cbn [bind]. rewrite ua_ok by lia. cbn [bind]. rewrite ushr_ok by lia. cbn [bind]. rewrite S2.
        eexists; split; [reflexivity|]. split; [lia|]. split; [do 3 f_equal; lia|].
        split; [rewrite zlen_replace_nth; auto|].
        intros j Hj. rewrite znth_replace by lia. rewrite order_at by lia. rewrite Ww' by lia.
        destruct (even2 j); cbn [andb]; [|reflexivity].
        destruct (Z.eqb_spec (order j) (4 * y + x)) as [EO|N].
        -- rewrite (proj2 (Z.ltb_lt (order j) (4 * y + (x + 1)))) by lia. rewrite EO. reflexivity.
        -- destruct (Z.ltb_spec (order j) (4 * y + x)), (Z.ltb_spec (order j) (4 * y + (x + 1))); auto; lia.
      * rewrite EQ'. eexists; split; [reflexivity|].
        split; [subst i'; clear; dlia|]. split; [rewrite Hmb'; do 2 f_equal; lia|]. split; [auto|].
        replace (4 * (y + 1)) with (4 * y + 4) by lia. exact Ww'.
    + rewrite EQ. cbn [bind]. clear EQ.
      assert (order_lt : forall j, 0 <= j < 32 -> 0 <= order j < 16) by (intros; unfold order; dlia).
      assert (W : forall j, 0 <= j < 32 -> znth w j = if even2 j then weight_std (bits_at v (2 * order j) 2) else fill_flag).
      { intros j Hj. rewrite Ww by lia. destruct (even2 j); [|reflexivity].
        rewrite (proj2 (Z.ltb_lt (order j) (4 * 4))) by (specialize (order_lt j Hj); lia). reflexivity. }
      rewrite idx_ok by lia. cbn [bind]. rewrite (W 0) by lia. change (even2 0) with true. cbv iota. change (order 0) with 0.
      pose proof (bits_range v (2 * 0) 2 ltac:(lia) ltac:(lia)) as R0. change (2 ^ 2) with 4 in R0.
      pose proof (weight_range _ R0) as [Q0 _].
      rewrite ia_ok by lia. cbn [bind]. rewrite one_bit by exact R0. rewrite high_of_two by lia. rewrite upd_ok by lia. cbn [bind].
      set (w1 := replace_nth _ _ w).
      assert (L1 : zlen w1 = 32) by (unfold w1; rewrite zlen_replace_nth; auto).
      set (w2 := if bits_at v 0 1 =? 1 then replace_nth (Z.to_nat 20) (8 * bits_at v 21 1) w1 else w1).
      match goal with |- context [bind (if ?c then ?x else ?y) _] =>
        assert ((if c then x else y) = Ok w2) as -> end.
      { unfold w2. destruct (bits_at v 0 1 =? 1); [|reflexivity].
        pose proof (bits_range v 20 2 ltac:(lia) ltac:(lia)) as R1. change (2 ^ 2) with 4 in R1.
        pose proof (weight_range _ R1) as [Q1 _].
        assert (znth w1 20 = weight_std (bits_at v 20 2)) as EW.
        { unfold w1. rewrite (znth_replace w 0) by lia. cbn [Z.eqb]. rewrite W by lia. reflexivity. }
        rewrite idx_ok by lia. cbn [bind]. rewrite EW.
        rewrite ia_ok by lia. cbn [bind]. rewrite one_bit by exact R1. rewrite high_of_two by lia. rewrite upd_ok by lia. reflexivity. }
      cbn [bind]. eexists; split; [reflexivity|]. unfold info2. cbn [ta tb tw tp].
      assert (Z2 : zlen w2 = 32) by (unfold w2; destruct (bits_at v 0 1 =? 1); rewrite ?zlen_replace_nth; auto).
      split; [auto|]. split; [auto|]. split; [auto|]. split; [|reflexivity].
      intros j Hj. rewrite E. cbn [Z.eqb Pos.eqb andb].
      assert (N20 : even2 20 = true /\ order 20 = 10) by (split; reflexivity).
      assert (N0 : even2 0 = true /\ order 0 = 0) by (split; reflexivity).
      assert (I20 : even2 j = true -> order j = 10 -> j = 20).
      { intros A B. pose proof (order_at 2 2 j ltac:(lia) ltac:(lia) Hj) as C. rewrite A, B in C. cbn [andb] in C.
        apply Z.eqb_eq in C. exact C. }
      assert (I0 : even2 j = true -> order j = 0 -> j = 0).
      { intros A B. pose proof (order_at 0 0 j ltac:(lia) ltac:(lia) Hj) as C. rewrite A, B in C. cbn [andb] in C.
        apply Z.eqb_eq in C. exact C. }
      unfold stored2. rewrite E. cbn [Z.eqb Pos.eqb]. cbv zeta. fold v. fold (order j).
      assert (V1 : znth w1 j = if j =? 0 then 8 * bits_at v (2 * 0 + 1) 1 else znth w j).
      { unfold w1. rewrite (znth_replace w 0) by lia. reflexivity. }
      assert (V2 : znth w2 j = if (j =? 20) && (bits_at v 0 1 =? 1) then 8 * bits_at v 21 1 else znth w1 j).
      { unfold w2. destruct (bits_at v 0 1 =? 1); rewrite ?andb_false_r, ?andb_true_r; [|reflexivity].
        rewrite (znth_replace w1 20) by lia. reflexivity. }
      rewrite V2, V1, W by lia.
      destruct (Z.eqb_spec j 20) as [->|n20].
      * destruct N20 as [-> ->]. cbn [negb Z.eqb Pos.eqb orb andb]. destruct (bits_at v 0 1 =? 1); reflexivity.
      * cbn [andb]. destruct (Z.eqb_spec j 0) as [->|n0].
        -- destruct N0 as [-> ->]. reflexivity.
        -- destruct (even2 j); cbn [negb]; [|reflexivity].
           destruct (Z.eqb_spec (order j) 0) as [e|_]; [elim n0; auto|].
           destruct (Z.eqb_spec (order j) 10) as [e|_]; [elim n20; auto|]. reflexivity.
  - match goal with |- context [for_range ?a ?n ?f ?s] =>
      destruct (for_range_inv (fun i st => let '(w, mb) := st in
        mb = v / 2 ^ i /\ zlen w = 32 /\ (forall j, 0 <= j < i -> znth w j = stored2 b j)) a n f s)
        as ([w mb] & EQ & _ & Lw & Ww) end.
    + lia.
    + change (2 ^ 0) with 1. rewrite Z.div_1_r. split; [auto|]. split; [reflexivity|]. intros; lia.
    + intros i [w mb] Hi (-> & Lw & Ww).
      rewrite upd_ok by lia. cbn [bind]. rewrite ushr_ok by lia. cbn [bind].
      rewrite <- div_pow_split by lia.
      eexists; split; [reflexivity|]. split; [reflexivity|]. split; [rewrite zlen_replace_nth; auto|].
      intros j Hj. rewrite znth_replace by lia. destruct (Z.eqb_spec j i) as [->|N]; [|apply Ww; lia].
      unfold stored2. destruct (Z.eqb_spec (pvr_mode b) 1); [contradiction|]. fold v. cbv zeta.
      rewrite odd_bit. unfold bits_at. change (2 ^ 0) with 1. rewrite Z.div_1_r. change (2 ^ 1) with 2.
      pose proof (Z.mod_pos_bound (v / 2 ^ i) 2 ltac:(lia)). destruct (Z.eqb_spec (v / 2 ^ i mod 2) 1); lia.
    + rewrite EQ. cbn [bind]. eexists; split; [reflexivity|]. unfold info2. cbn [ta tb tw tp].
      split; [auto|]. split; [auto|]. split; [auto|]. split; [|reflexivity]. intros j Hj.
      destruct (Z.eqb_spec (pvr_mode b) 1); [contradiction|]. cbn [andb]. apply Ww. lia.
Qed.
End Colors.
