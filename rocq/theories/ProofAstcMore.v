(** * ASTC: consequences in the form of the properties *)
From Verif Require Import Base BaseLemmas BitLemmas FieldLemmas ModelColor ModelBits ProofDecoder ProofBits ProofPvrInfo SpecBc ProofBc SpecF16 ModelAstc SpecAstc ProofAstcSeq ProofAstcParams ProofAstcEnd ProofAstcWeights ProofAstcRange ProofAstcColor SpecAstcCode ProofAstcBlock.

(** ** Void extent in bytes *)
Lemma testbit0_land x : Z.testbit x 0 = true -> Z.land x 1 =? 1 = true.
Proof. intros H. rewrite land_1. apply Z.eqb_eq. rewrite <- Z.bit0_mod. rewrite H. reflexivity. Qed.
Lemma testbit_bfield x i : 0 <= i -> (bfield x i 1 =? 1) = Z.testbit x i.
Proof.
  intros Hi. unfold bfield. change (2 ^ 1) with 2. rewrite <- Z.testbit_spec' by lia.
  destruct (Z.testbit x i); reflexivity.
Qed.
Lemma half_word buf k : bytes buf -> 0 <= k < 15 -> bfield (astc_word buf) (8 * k) 16 = znth buf k + 256 * znth buf (k + 1).
Proof.
  intros Hb Hk. change 16 with (8 + 8). rewrite bfield_join by lia. change (2 ^ 8) with 256.
  rewrite (byte_word buf Hb k), (byte_word buf Hb (k + 1)) by lia. replace (8 * (k + 1)) with (8 * k + 8) by lia. reflexivity.
Qed.
Lemma half_words buf : bytes buf ->
  bfield (astc_word buf) (64 + 16 * 0) 16 = znth buf 8 + 256 * znth buf 9 /\
  bfield (astc_word buf) (64 + 16 * 1) 16 = znth buf 10 + 256 * znth buf 11 /\
  bfield (astc_word buf) (64 + 16 * 2) 16 = znth buf 12 + 256 * znth buf 13 /\
  bfield (astc_word buf) (64 + 16 * 3) 16 = znth buf 14 + 256 * znth buf 15.
Proof.
  intros Hb. change (64 + 16 * 0) with (8 * 8). change (64 + 16 * 1) with (8 * 10).
  change (64 + 16 * 2) with (8 * 12). change (64 + 16 * 3) with (8 * 14). rewrite !half_word by (auto; lia). auto.
Qed.
Lemma hdr_flag buf : bytes buf -> (bfield (astc_word buf) 9 1 =? 1) = Z.testbit (znth buf 1) 1.
Proof. intros Hb. rewrite <- testbit_bfield by lia. rewrite <- (word_byte buf Hb 1 1 1) by lia. reflexivity. Qed.
Lemma void_bytes_any m bw bh buf out : 0 <= bw * bh <= 144 -> bytes buf -> 16 <= zlen buf -> bw * bh <= zlen out ->
  znth buf 0 = 0xfc -> Z.testbit (znth buf 1) 0 = true ->
  let hdr := Z.testbit (znth buf 1) 1 in
  let h c := znth buf (8 + 2 * c) + 256 * znth buf (9 + 2 * c) in
  if hdr && existsb (fun c => h c =? 0xfc00) [0; 1; 2; 3] && match m with Checked => true | Wrapping => false end
  then decode_astc_block m buf bw bh out = Panic
  else exists o, decode_astc_block m buf bw bh out = Ok o /\ zlen o = zlen out /\
    (forall t, 0 <= t < bw * bh -> znth o t =
       if hdr then rgba (code_half_byte (h 0)) (code_half_byte (h 1)) (code_half_byte (h 2)) (code_half_byte (h 3))
       else rgba (znth buf 9) (znth buf 11) (znth buf 13) (znth buf 15)) /\
    (forall t, bw * bh <= t -> znth o t = znth out t).
Proof.
  intros Ha Hb Hl Ho H0 H1 hdr h.
  assert (void_extent (astc_word buf) = true) as V.
  { rewrite <- void_test by auto. rewrite H0, (testbit0_land _ H1). reflexivity. }
  destruct (half_words buf Hb) as (E0 & E1 & E2 & E3). pose proof (hdr_flag buf Hb) as EH. fold hdr in EH.
  change (znth buf 8 + 256 * znth buf 9) with (h 0) in E0. change (znth buf 10 + 256 * znth buf 11) with (h 1) in E1.
  change (znth buf 12 + 256 * znth buf 13) with (h 2) in E2. change (znth buf 14 + 256 * znth buf 15) with (h 3) in E3.
  assert (hdr && existsb (fun c => h c =? 0xfc00) [0; 1; 2; 3] && match m with Checked => true | Wrapping => false end =
    negb (void_decodes m (astc_word buf))) as ->.
  { unfold void_decodes, void_neg_inf. rewrite V, EH. cbn [existsb andb]. rewrite E0, E1, E2, E3.
    destruct m; [rewrite andb_true_r, negb_involutive|rewrite andb_false_r]; reflexivity. }
  destruct (void_decodes m (astc_word buf)) eqn:D; cbn [negb]; [|apply void_panic; auto].
  destruct (void_block m buf bw bh Hb Hl Ha V D out Ho) as (o & E & L & F).
  exists o. split; [exact E|]. split; [exact L|]. split; intros t Ht; unfold znth at 1; rewrite F by lia.
  - destruct (Z.ltb_spec t (bw * bh)); [|lia]. unfold code_void_texel. rewrite EH, E0, E1, E2, E3.
    assert (forall r g b a, astc_rgba r g b a = rgba r g b a) as RG by (intros; unfold astc_rgba, rgba; ring). rewrite !RG.
    destruct hdr; [reflexivity|]. unfold h.
    assert (forall a b, 0 <= a < 256 -> (a + 256 * b) / 256 = b) as DV.
    { intros a b Hab. rewrite (Z.mul_comm 256), Z.div_add, Z.div_small by lia. lia. }
    rewrite !DV by (apply znth_byte; auto; lia). reflexivity.
  - destruct (Z.ltb_spec t (bw * bh)); [lia|]. reflexivity.
Qed.
Lemma void_bytes m bw bh buf out : 0 <= bw * bh <= 144 -> bytes buf -> 16 <= zlen buf -> bw * bh <= zlen out ->
  znth buf 0 = 0xfc -> Z.testbit (znth buf 1) 0 = true ->
  (Z.testbit (znth buf 1) 1 = true -> forall c, 0 <= c < 4 -> znth buf (8 + 2 * c) + 256 * znth buf (9 + 2 * c) <> 0xfc00) ->
  exists o, decode_astc_block m buf bw bh out = Ok o /\ zlen o = zlen out /\
    (forall t, 0 <= t < bw * bh -> znth o t =
       if Z.testbit (znth buf 1) 1
       then rgba (half_byte (znth buf 8 + 256 * znth buf 9)) (half_byte (znth buf 10 + 256 * znth buf 11))
                 (half_byte (znth buf 12 + 256 * znth buf 13)) (half_byte (znth buf 14 + 256 * znth buf 15))
       else rgba (znth buf 9) (znth buf 11) (znth buf 13) (znth buf 15)) /\
    (forall t, bw * bh <= t -> znth o t = znth out t).
Proof.
  intros Ha Hb Hl Ho H0 H1 HI. pose proof (void_bytes_any m bw bh buf out Ha Hb Hl Ho H0 H1) as K. cbv zeta in K.
  destruct (Z.testbit (znth buf 1) 1); [|exact K].
  pose proof (HI eq_refl 0 ltac:(lia)) as I0. pose proof (HI eq_refl 1 ltac:(lia)) as I1.
  pose proof (HI eq_refl 2 ltac:(lia)) as I2. pose proof (HI eq_refl 3 ltac:(lia)) as I3.
  unfold code_half_byte in K. cbn [existsb andb] in K. apply Z.eqb_neq in I0, I1, I2, I3. rewrite I0, I1, I2, I3 in K. exact K.
Qed.

(** ** Codes of digits *)
Definition trit_key (T : Z) : Z := fold_right (fun d a => d + 3 * a) 0 (trit_digits T).
Lemma trit_cover : forallb (fun x => existsb (Z.eqb x) (map trit_key (zrange 0 256))) (zrange 0 243) = true.
Proof. vm_cast_no_check (eq_refl true). Qed.
Lemma trit_shape T : 0 <= T < 256 -> exists a b c d e, trit_digits T = [a; b; c; d; e] /\
  0 <= a < 3 /\ 0 <= b < 3 /\ 0 <= c < 3 /\ 0 <= d < 3 /\ 0 <= e < 3.
Proof.
  intros H. pose proof (fun j Hj => digits_range Trits T j H Hj) as R. cbn [digits per_block radix_digits] in R.
  assert (zlen (trit_digits T) = 5) as L.
  { unfold trit_digits. cbv zeta. destruct (if bfield T 2 3 =? 7 then _ else _) as [[C t4] t3].
    destruct (bfield C 0 2 =? 3); [reflexivity|]. destruct (bfield C 2 2 =? 3); reflexivity. }
  destruct (trit_digits T) as [|a [|b [|c [|d [|e [|? ?]]]]]] eqn:E; try (unfold zlen in L; cbn [length] in L; lia).
  exists a, b, c, d, e. split; [reflexivity|].
  pose proof (R 0 ltac:(lia)). pose proof (R 1 ltac:(lia)). pose proof (R 2 ltac:(lia)). pose proof (R 3 ltac:(lia)). pose proof (R 4 ltac:(lia)).
  auto.
Qed.
Lemma trit_codes t0 t1 t2 t3 t4 :
  0 <= t0 < 3 -> 0 <= t1 < 3 -> 0 <= t2 < 3 -> 0 <= t3 < 3 -> 0 <= t4 < 3 ->
  exists T, 0 <= T < 256 /\ trit_digits T = [t0; t1; t2; t3; t4].
Proof.
  intros. set (x := t0 + 3 * (t1 + 3 * (t2 + 3 * (t3 + 3 * t4)))).
  pose proof trit_cover as S. rewrite forallb_forall in S. specialize (S x). rewrite existsb_exists in S.
  destruct S as (y & I & E); [apply in_zrange; lia|]. apply Z.eqb_eq in E. subst y.
  apply in_map_iff in I as (T & E & I). apply in_zrange in I. exists T. split; [exact I|].
  destruct (trit_shape T I) as (a & b & c & d & e & ET & Ra & Rb & Rc & Rd & Re).
  unfold trit_key in E. rewrite ET in *. cbn [fold_right] in E. unfold x in E.
  assert (a = t0) as -> by lia. assert (b = t1) as -> by lia. assert (c = t2) as -> by lia. assert (d = t3) as -> by lia.
  assert (e = t4) as -> by lia. reflexivity.
Qed.
Definition quint_key (T : Z) : Z := fold_right (fun d a => d + 5 * a) 0 (quint_digits T).
Lemma quint_cover : forallb (fun x => existsb (Z.eqb x) (map quint_key (zrange 0 128))) (zrange 0 125) = true.
Proof. vm_cast_no_check (eq_refl true). Qed.
Lemma quint_codes q0 q1 q2 :
  0 <= q0 < 5 -> 0 <= q1 < 5 -> 0 <= q2 < 5 -> exists Q, 0 <= Q < 128 /\ quint_digits Q = [q0; q1; q2].
Proof.
  intros. set (x := q0 + 5 * (q1 + 5 * q2)).
  pose proof quint_cover as S. rewrite forallb_forall in S. specialize (S x). rewrite existsb_exists in S.
  destruct S as (y & I & E); [apply in_zrange; lia|]. apply Z.eqb_eq in E. subst y.
  apply in_map_iff in I as (T & E & I). apply in_zrange in I. exists T. split; [exact I|].
  pose proof (fun j Hj => digits_range Quints T j I Hj) as R. cbn [digits per_block radix_digits] in R.
  assert (zlen (quint_digits T) = 3) as L.
  { unfold quint_digits. cbv zeta. destruct ((bfield T 1 2 =? 3) && (bfield T 5 2 =? 0)); [reflexivity|].
    destruct (if bfield T 1 2 =? 3 then _ else _) as [C q]. destruct (bfield C 0 3 =? 5); reflexivity. }
  unfold quint_key in E. destruct (quint_digits T) as [|a [|b [|c [|? ?]]]]; try (unfold zlen in L; cbn [length] in L; lia).
  pose proof (R 0 ltac:(lia)) as Ra. pose proof (R 1 ltac:(lia)) as Rb. pose proof (R 2 ltac:(lia)) as Rc.
  rewrite zn0 in Ra. rewrite zn1 in Rb. rewrite zn2 in Rc.
  cbn [fold_right] in E. unfold x in E.
  assert (a = q0) as -> by lia. assert (b = q1) as -> by lia. assert (c = q2) as -> by lia. reflexivity.
Qed.

(** ** Weight levels *)
Definition level_check (m : build) (e : radix * Z * list Z) : bool :=
  let '(k, n, levels) := e in
  let vs := flat_map (fun v => map (fun d => unquant_weight m (radix_code k) n (v, d)) (zrange 0 (radix_size k))) (zrange 0 (2 ^ n)) in
  (zlen levels =? radix_size k * 2 ^ n) && (0 <=? n) &&
  forallb (fun r => match r with Ok w => existsb (Z.eqb w) levels | _ => false end) vs &&
  forallb (fun w => existsb (fun r => match r with Ok w' => w =? w' | _ => false end) vs) levels.
Lemma level_sweep m : forallb (level_check m) weight_levels = true.
Proof. destruct m; vm_cast_no_check (eq_refl true). Qed.
Lemma weight_tables m k n levels : In (k, n, levels) weight_levels ->
  zlen levels = radix_size k * 2 ^ n /\
  (forall v d, 0 <= v < 2 ^ n -> 0 <= d < radix_size k ->
     exists w, unquant_weight m (radix_code k) n (v, d) = Ok w /\ In w levels) /\
  (forall w, In w levels -> exists v d, 0 <= v < 2 ^ n /\ 0 <= d < radix_size k /\ unquant_weight m (radix_code k) n (v, d) = Ok w).
Proof.
  intros I. pose proof (level_sweep m) as S. rewrite forallb_forall in S. apply S in I. unfold level_check in I.
  rewrite !andb_true_iff in I. destruct I as [[[L N] A] B]. apply Z.eqb_eq in L. rewrite forallb_forall in A, B.
  split; [exact L|]. split.
  - intros v d Hv Hd. specialize (A (unquant_weight m (radix_code k) n (v, d))).
    destruct (unquant_weight m (radix_code k) n (v, d)) as [w| |] eqn:E.
    2, 3: exfalso; lapply A; [discriminate|]; apply in_flat_map; exists v; split; [apply in_zrange; auto|]; apply in_map_iff; exists d; split; [auto|apply in_zrange; auto].
    exists w. split; [reflexivity|]. lapply A.
    + intros X. apply existsb_exists in X as (y & X1 & X2). apply Z.eqb_eq in X2. subst y. exact X1.
    + apply in_flat_map. exists v. split; [apply in_zrange; auto|]. apply in_map_iff. exists d. split; [auto|apply in_zrange; auto].
  - intros w Hw. specialize (B w Hw). apply existsb_exists in B as (r & B1 & B2). destruct r as [w'| |]; try discriminate.
    apply Z.eqb_eq in B2. subst w'. apply in_flat_map in B1 as (v & V & B1). apply in_map_iff in B1 as (d & E & D).
    apply in_zrange in V. apply in_zrange in D. exists v, d. auto.
Qed.

(** ** Weights of a legal block *)
Lemma legal_weights m buf bw bh l : bytes buf -> 16 <= zlen buf -> 2 <= bw -> 2 <= bh -> bw * bh <= 144 ->
  block_layout (astc_word buf) = Some l ->
  exists d ws, decode_block_params m buf = Ok d /\ decode_weights m buf bw bh d = Ok ws /\
    forall t p, 0 <= t < bw * bh -> 0 <= p < (if g_dual (l_grid l) then 2 else 1) ->
      znth (nth (Z.to_nat t) ws []) p =
      infill bw bh (g_width (l_grid l)) (g_height (l_grid l)) (if g_dual (l_grid l) then 2 else 1)
        (weights_of (astc_word buf) l) p (t mod bw) (t / bw).
Proof.
  intros Hb Hl Hw Hh Ha HL. pose proof (layout_facts buf l Hb Hl HL) as LO.
  destruct (legal_params m buf l Hb Hl HL) as (range & EP & _). cbv zeta in EP.
  set (d := mkParams _ _ _ _ _ _ _ _ _ _) in EP.
  destruct (weight_values_ok m buf l d Hb Hl LO) as (wv & EW & Lw & HW); [reflexivity|reflexivity|].
  pose proof (lo_width _ _ LO) as GW. pose proof (lo_height _ _ LO) as GH. pose proof (lo_wcount _ _ LO) as GC. pose proof (lo_wcount64 _ _ LO) as GC64.
  destruct (infill_ok m bw bh (g_width (l_grid l)) (g_height (l_grid l)) (g_dual (l_grid l)) wv (weights_of (astc_word buf) l)) as (ws & EI & Lws & HWS); auto.
  { apply small_grid; lia. } { intros; apply weights_range; auto. }
  exists d, ws. split; [exact EP|]. split.
  - unfold decode_weights. rewrite EW. cbn [bind]. exact EI.
  - intros t p Ht Hp. rewrite HWS by lia. destruct (Z.ltb_spec t (bw * bh)); [|lia]. cbv zeta.
    destruct (g_dual (l_grid l)).
    + assert (p = 0 \/ p = 1) as [->| ->] by lia; reflexivity.
    + assert (p = 0) as -> by lia. reflexivity.
Qed.

(** ** Partitions by position *)
Lemma partition_at m buf bw bh parts : bytes buf -> 16 <= zlen buf -> 1 <= bw -> 1 <= bh -> bw * bh <= 144 -> 2 <= parts <= 4 ->
  exists ps, select_partition m buf bw bh parts = Ok ps /\ zlen ps = 144 /\
    forall x y, 0 <= x < bw -> 0 <= y < bh ->
      znth ps (y * bw + x) = partition (bfield (astc_word buf) 13 10) parts x y (bw * bh <? 31) /\
      0 <= znth ps (y * bw + x) < parts.
Proof.
  intros Hb Hl Hw Hh Ha Hp.
  destruct (select_partition_ok m buf bw bh parts Hb Hl Hw Hh Ha ltac:(lia)) as (ps & E & L & F).
  exists ps. split; [exact E|]. split; [exact L|]. intros x y Hx Hy.
  assert (0 <= y * bw) by (apply Z.mul_nonneg_nonneg; lia).
  assert ((y + 1) * bw <= bh * bw) by (apply Z.mul_le_mono_nonneg_r; lia).
  assert (znth ps (y * bw + x) = partition (bfield (astc_word buf) 13 10) parts x y (bw * bh <? 31)) as EE.
  { rewrite F by lia. f_equal.
    - symmetry. apply Z.mod_unique with y; lia.
    - symmetry. apply Z.div_unique with x; lia. }
  split; [exact EE|]. rewrite EE. apply partition_range; lia.
Qed.

(** ** End points *)
Lemma ldr_ends m cem v : 0 <= cem < 16 -> existsb (Z.eqb cem) [0; 1; 4; 5; 6; 8; 9; 10; 12; 13] = true -> bytes v -> cem_values cem <= zlen v ->
  let '((r0, g0, b0, a0), (r1, g1, b1, a1)) := end_points cem (znth v) in
  decode_cem m cem v = Ok [r0; g0; b0; a0; r1; g1; b1; a1] /\
  is_byte r0 /\ is_byte g0 /\ is_byte b0 /\ is_byte a0 /\ is_byte r1 /\ is_byte g1 /\ is_byte b1 /\ is_byte a1.
Proof.
  intros Hc Hm Hv Hl. pose proof (decode_cem_ok m cem v Hc Hv Hl) as D.
  rewrite ends_plain in D; auto.
  2: { intros I. exfalso. cbn [In] in I. destruct I as [<-|[<-|[<-|[]]]]; discriminate Hm. }
  assert (forall k, 0 <= k < 8 -> 0 <= znth v k < 256) as R.
  { intros k Hk. destruct (Z.ltb_spec k (zlen v)); [apply bytes_znth; auto; lia|].
    unfold znth. rewrite nth_overflow by (unfold zlen in *; lia). lia. }
  destruct (ends_in sign_extend cem (znth v) Hc R) as [I0 I1].
  change (end_points_with sign_extend cem (znth v)) with (end_points cem (znth v)) in I0, I1.
  destruct (end_points cem (znth v)) as [[[[r0 g0] b0] a0] [[[r1 g1] b1] a1]]. cbn [fst snd] in I0, I1.
  split; [exact D|]. unfold quad_in, channel_max, channel_hdr in I0, I1. cbn [Z.eqb Pos.eqb] in I0, I1.
  assert (hdr_color_mode cem = false /\ hdr_alpha_mode cem = false) as [Q1 Q2].
  { clear - Hc Hm. enum cem Hc; try discriminate Hm; split; reflexivity. }
  rewrite Q1, Q2 in I0, I1. unfold is_byte. lia.
Qed.

(** ** Locality *)
Lemma filled_unique (out a b : list Z) n T : filled 0 out a n T -> filled 0 out b n T -> a = b.
Proof.
  intros [La Fa] [Lb Fb]. apply (nth_ext _ _ 0 0).
  - unfold zlen in *. lia.
  - intros i Hi. rewrite <- (Nat2Z.id i). rewrite Fa, Fb by lia. reflexivity.
Qed.
Lemma block_local m buf bw bh out : bytes buf -> 16 <= zlen buf -> 2 <= bw -> 2 <= bh -> bw * bh <= 144 -> bw * bh <= zlen out ->
  well_formed (astc_word buf) -> decode_astc_block m buf bw bh out = decode_astc_block m (firstn 16 buf) bw bh out.
Proof.
  intros Hb Hl Hw Hh Ha Ho WF.
  assert (astc_word (firstn 16 buf) = astc_word buf) as EW by (unfold astc_word; rewrite firstn_firstn; reflexivity).
  destruct (well_formed_block m buf bw bh Hb Hl Hw Hh Ha WF out Ho) as (o & E & F).
  destruct (well_formed_block m (firstn 16 buf) bw bh) with (out := out) as (o' & E' & F'); auto.
  - apply bytes_firstn; auto.
  - unfold zlen in *. rewrite firstn_length. lia.
  - rewrite EW. exact WF.
  - rewrite EW in F'. rewrite E, E'. f_equal. eapply filled_unique; eauto.
Qed.

Lemma code_ends m cem v : 0 <= cem < 16 -> bytes v -> cem_values cem <= zlen v ->
  let '((r0, g0, b0, a0), (r1, g1, b1, a1)) := end_points_with extend16 cem (znth v) in
  decode_cem m cem v = Ok [r0; g0; b0; a0; r1; g1; b1; a1] /\
  (forall x, In x [r0; g0; b0; a0; r1; g1; b1; a1] -> 0 <= x < 4096).
Proof.
  intros Hc Hv Hl. pose proof (decode_cem_ok m cem v Hc Hv Hl) as D.
  assert (forall k, 0 <= k < 8 -> 0 <= znth v k < 256) as R.
  { intros k Hk. destruct (Z.ltb_spec k (zlen v)); [apply bytes_znth; auto; lia|].
    unfold znth. rewrite nth_overflow by (unfold zlen in *; lia). lia. }
  destruct (ends_in extend16 cem (znth v) Hc R) as [I0 I1].
  destruct (end_points_with extend16 cem (znth v)) as [[[[r0 g0] b0] a0] [[[r1 g1] b1] a1]]. cbn [fst snd] in I0, I1.
  split; [exact D|]. unfold quad_in, channel_max, channel_hdr in I0, I1. cbn [Z.eqb Pos.eqb] in I0, I1.
  intros x I. cbn [In] in I. destruct (hdr_color_mode cem), (hdr_alpha_mode cem);
  repeat (destruct I as [<-|I]; [lia|]); destruct I.
Qed.

(** ** Parameters *)
Lemma params_fields m buf l : bytes buf -> 16 <= zlen buf -> block_layout (astc_word buf) = Some l ->
  exists d, decode_block_params m buf = Ok d /\
    bp_width d = g_width (l_grid l) /\ bp_height d = g_height (l_grid l) /\ bp_dual_plane d = g_dual (l_grid l) /\
    bp_weight_range d = g_range (l_grid l) /\ bp_weight_num d = l_wcount l /\
    bp_part_num d = l_parts l /\ (forall p, 0 <= p < l_parts l -> znth (bp_cem d) p = znth (l_cems l) p) /\
    (g_dual (l_grid l) = true -> bp_plane_selector d = l_plane l) /\
    bp_endpoint_value_num d = l_cvalues l /\
    znth CEM_TABLE_A (bp_cem_range d) = radix_code (fst (l_cq l)) /\ znth CEM_TABLE_B (bp_cem_range d) = snd (l_cq l).
Proof.
  intros Hb Hl HL. pose proof (layout_facts buf l Hb Hl HL) as LO.
  destruct (legal_params m buf l Hb Hl HL) as (range & EP & A & B & _). cbv zeta in EP.
  eexists. split; [exact EP|]. cbn [bp_width bp_height bp_dual_plane bp_weight_range bp_weight_num bp_part_num bp_cem bp_plane_selector bp_endpoint_value_num bp_cem_range].
  repeat (split; [auto; fail|]). split; [|auto].
  intros p Hp. apply znth_app_l. rewrite (lo_cems _ _ LO). exact Hp.
Qed.
Lemma mode_cases buf : bytes buf -> 16 <= zlen buf ->
  match block_mode (astc_word buf) with
  | Some g => block_grid buf = Ok (g_dual g, g_range g, g_width g, g_height g) /\
      2 <= g_width g <= 12 /\ 2 <= g_height g <= 12
  | None => forall m bw bh out, 0 <= bw * bh <= 144 -> bw * bh <= zlen out -> void_extent (astc_word buf) = false ->
      exists o, decode_astc_block m buf bw bh out = Ok o /\ forall t, 0 <= t < bw * bh -> znth o t = 0xffff00ff
  end.
Proof.
  intros Hb Hl. pose proof (block_grid_ok buf Hb Hl) as G. cbv zeta in G.
  destruct (block_mode (astc_word buf)) as [g|] eqn:M; [tauto|].
  intros m bw bh out Ha Ho V. destruct (reserved_block m buf bw bh Hb Hl Ha V M out Ho) as (o & E & L & F).
  exists o. split; [exact E|]. intros t Ht. unfold znth. rewrite F by lia. destruct (Z.ltb_spec t (bw * bh)); [reflexivity|lia].
Qed.

(** ** Colour levels *)
Fixpoint fresh (acc : Z) (l : list Z) : bool :=
  match l with
  | [] => true
  | x :: l' => (0 <=? x) && negb (Z.testbit acc x) && fresh (Z.setbit acc x) l'
  end.
Lemma fresh_nodup l : forall acc, fresh acc l = true -> NoDup l /\ forall x, In x l -> Z.testbit acc x = false.
Proof.
  induction l as [|a l IH]; intros acc H; [split; [constructor|intros x []]|].
  cbn [fresh] in H. rewrite !andb_true_iff, negb_true_iff in H. destruct H as [[P T] F]. apply Z.leb_le in P.
  destruct (IH _ F) as [N R]. split.
  - constructor; [|exact N]. intros I. specialize (R a I). rewrite Z.setbit_eq in R by lia. discriminate R.
  - intros x [<-|I]; [exact T|]. specialize (R x I). rewrite Z.setbit_eqb in R by lia. apply orb_false_iff in R. apply R.
Qed.
Lemma nodup_map_inj {A B} (f : A -> B) l a b : NoDup (map f l) -> In a l -> In b l -> f a = f b -> a = b.
Proof.
  induction l as [|x l IH]; intros N Ia Ib E; [destruct Ia|]. cbn [map] in N. inversion N as [|? ? N1 N2]; subst.
  destruct Ia as [->|Ia], Ib as [->|Ib]; auto.
  - exfalso. apply N1. rewrite E. apply in_map. exact Ib.
  - exfalso. apply N1. rewrite <- E. apply in_map. exact Ia.
Qed.
Definition codes (k : radix) (n : Z) : list (Z * Z) := list_prod (zrange 0 (2 ^ n)) (zrange 0 (radix_digits k)).
Definition color_check (kn : radix * Z) : bool :=
  let '(k, n) := kn in
  let l := map (color_value k n) (codes k n) in
  fresh 0 l && (color_value k n (0, 0) =? 0) && existsb (Z.eqb 255) l && (0 <=? n).
Lemma color_sweep : forallb color_check color_quants = true.
Proof. vm_cast_no_check (eq_refl true). Qed.
Lemma color_levels m k n : In (k, n) color_quants ->
  (forall v d v' d', 0 <= v < 2 ^ n -> 0 <= d < radix_size k -> 0 <= v' < 2 ^ n -> 0 <= d' < radix_size k ->
     unquant_endpoint m (radix_code k) n (v, d) = unquant_endpoint m (radix_code k) n (v', d') -> v = v' /\ d = d') /\
  unquant_endpoint m (radix_code k) n (0, 0) = Ok 0 /\
  exists v d, 0 <= v < 2 ^ n /\ 0 <= d < radix_size k /\ unquant_endpoint m (radix_code k) n (v, d) = Ok 255.
Proof.
  intros I. pose proof color_sweep as S. rewrite forallb_forall in S. specialize (S _ I). unfold color_check in S.
  rewrite !andb_true_iff in S. destruct S as [[[F Z0] M] N]. apply Z.eqb_eq in Z0. apply Z.leb_le in N.
  apply fresh_nodup in F as [F _].
  assert (radix_size k = radix_digits k) as RS by (destruct k; reflexivity). rewrite RS.
  assert (0 < 2 ^ n) by (apply Z.pow_pos_nonneg; lia). assert (0 < radix_digits k) by (destruct k; cbn; lia).
  assert (forall v d, 0 <= v < 2 ^ n -> 0 <= d < radix_digits k -> In (v, d) (codes k n)) as C
    by (intros; apply in_prod; apply in_zrange; auto).
  split; [|split].
  - intros v d v' d' Hv Hd Hv' Hd' E.
    rewrite (proj1 (unquant_endpoint_ok m k n (v, d) I Hv Hd)), (proj1 (unquant_endpoint_ok m k n (v', d') I Hv' Hd')) in E.
    assert (color_value k n (v, d) = color_value k n (v', d')) as E' by congruence.
    apply (nodup_map_inj _ _ _ _ F) in E'; auto. injection E' as -> ->. auto.
  - rewrite (proj1 (unquant_endpoint_ok m k n (0, 0) I ltac:(cbn [fst]; lia) ltac:(cbn [snd]; lia))). rewrite Z0. reflexivity.
  - apply existsb_exists in M as (x & M & E). apply Z.eqb_eq in E. subst x. apply in_map_iff in M as ([v d] & E & M).
    apply in_prod_iff in M as [Hv Hd]. apply in_zrange in Hv. apply in_zrange in Hd.
    exists v, d. split; [auto|]. split; [auto|]. rewrite (proj1 (unquant_endpoint_ok m k n (v, d) I Hv Hd)). rewrite E. reflexivity.
Qed.

(** ** Interpolation *)
Lemma ldr_interpolation m e0 e1 w : is_byte e0 -> is_byte e1 -> 0 <= w <= 64 ->
  exists c, select_color m e0 e1 w = Ok c /\ is_byte c /\
    c = ((257 * (e0 * (64 - w) + e1 * w) + 32) / 64 * 255 + 32768) / 65536 /\
    (w = 0 -> c = e0) /\ (w = 64 -> c = e1) /\ Z.min e0 e1 <= c <= Z.max e0 e1.
Proof.
  intros H0 H1 Hw. unfold is_byte in H0, H1. destruct (select_color_ok m e0 e1 w H0 H1 Hw) as [E R].
  exists (ldr_texel e0 e1 w). split; [exact E|]. split; [exact R|].
  assert (ldr_texel e0 e1 w = ((257 * (e0 * (64 - w) + e1 * w) + 32) / 64 * 255 + 32768) / 65536) as L.
  { unfold ldr_texel. do 4 f_equal. ring. }
  split; [exact L|]. rewrite L. clear E R L.
  set (s := e0 * (64 - w) + e1 * w).
  assert (64 * Z.min e0 e1 <= s <= 64 * Z.max e0 e1) as S.
  { unfold s. assert (forall a x, 0 <= x -> Z.min e0 e1 <= a <= Z.max e0 e1 -> Z.min e0 e1 * x <= a * x <= Z.max e0 e1 * x) as P
      by (intros; split; apply Z.mul_le_mono_nonneg_r; lia).
    pose proof (P e0 (64 - w) ltac:(lia) ltac:(lia)). pose proof (P e1 w ltac:(lia) ltac:(lia)). lia. }
  assert (forall lo hi, 0 <= lo -> hi < 256 -> 64 * lo <= s <= 64 * hi -> lo <= ((257 * s + 32) / 64 * 255 + 32768) / 65536 <= hi) as K.
  { intros lo hi Hlo Hhi Hs.
    assert (257 * lo <= (257 * s + 32) / 64) by (apply Z.div_le_lower_bound; lia).
    assert ((257 * s + 32) / 64 < 257 * hi + 1) by (apply Z.div_lt_upper_bound; lia).
    split; [apply Z.div_le_lower_bound; lia|]. apply Z.lt_succ_r. apply Z.div_lt_upper_bound; lia. }
  split; [|split].
  - intros ->. assert (s = 64 * e0) by (unfold s; lia). pose proof (K e0 e0 ltac:(lia) ltac:(lia) ltac:(lia)). lia.
  - intros ->. assert (s = 64 * e1) by (unfold s; lia). pose proof (K e1 e1 ltac:(lia) ltac:(lia) ltac:(lia)). lia.
  - apply K; lia.
Qed.
