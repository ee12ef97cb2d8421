(** * ASTC: partition function, colour interpolation, range of the end points *)
From Verif Require Import Base BaseLemmas BitLemmas FieldLemmas ModelBits ProofDecoder ProofBits ProofPvrInfo ModelF16 SpecF16 ProofF16 ModelAstc SpecAstc ProofAstcSeq ProofAstcParams ProofAstcEnd ProofAstcWeights.
From Coq Require Import Floats.SpecFloat.

(** ** Partition function *)
Lemma hash_ok s : 0 <= s < 2 ^ 32 -> partition_hash s = hash52 s.
Proof.
  intros H. unfold partition_hash, hash52, u32. rewrite (Z.mod_small s) by lia.
  repeat first [rewrite shr_div by lia | rewrite shl_mul by lia].
  cbv zeta. repeat first [rewrite Zminus_mod_idemp_r | rewrite Zplus_mod_idemp_r]. reflexivity.
Qed.

Lemma swrap_field x p n : 0 <= p -> 0 <= n -> p + n <= 32 -> bfield (swrap 32 x) p n = bfield x p n.
Proof.
  intros Hp Hn H. rewrite <- (bfield_mod (swrap 32 x) 32), <- (bfield_mod x 32) by lia. f_equal.
  unfold swrap. destruct (_ <? _); [apply Z.mod_mod; lia|].
  replace (x mod 2 ^ 32 - 2 ^ 32) with (x mod 2 ^ 32 + (-1) * 2 ^ 32) by lia. rewrite Z.mod_add by lia. apply Z.mod_mod. lia.
Qed.

Lemma bit_set_field x k : 0 <= k -> bit_set x (2 ^ k) = (bfield x k 1 =? 1).
Proof.
  intros Hk. unfold bit_set. pose proof (land_shifted x k 1 Hk ltac:(lia)) as L. change (2 ^ 1 - 1) with 1 in L. rewrite Z.mul_1_r in L.
  rewrite L. fold (bfield x k 1). pose proof (bfield_range x k 1 ltac:(lia)) as R. change (2 ^ 1) with 2 in *.
  assert (0 < 2 ^ k) by (apply Z.pow_pos_nonneg; lia).
  assert (bfield x k 1 = 0 \/ bfield x k 1 = 1) as [-> | ->] by lia.
  - rewrite Z.mul_0_r. reflexivity.
  - rewrite Z.mul_1_r. destruct (Z.eqb_spec (2 ^ k) 0); [lia|reflexivity].
Qed.

Lemma lxor_ub n a b : 0 <= n -> 0 <= a < 2 ^ n -> 0 <= b < 2 ^ n -> 0 <= Z.lxor a b < 2 ^ n.
Proof.
  intros Hn Ha Hb. assert (Z.lxor a b = Z.lxor a b mod 2 ^ n) as ->; [|apply Z.mod_pos_bound; lia].
  apply Z.bits_inj'. intros k Hk. destruct (Z.lt_ge_cases k n).
  - rewrite Z.mod_pow2_bits_low by lia. reflexivity.
  - rewrite Z.mod_pow2_bits_high by lia. rewrite Z.lxor_spec.
    rewrite <- (Z.mod_small a (2 ^ n)), <- (Z.mod_small b (2 ^ n)) by lia. rewrite !Z.mod_pow2_bits_high by lia. reflexivity.
Qed.

Lemma term_gen m A B x y r s : 0 <= A <= 225 -> 0 <= B <= 225 -> 0 <= x <= 288 -> 0 <= y <= 288 -> 2 <= s -> 0 <= r < 4294967296 ->
  (let* c := ia m 32 (A * swrap 32 x) in
   let* d := ia m 32 (B * swrap 32 y) in
   let* e := ia m 32 (c + d) in
   let* e := ia m 32 (e + swrap 32 (Z.shiftr r s)) in
   Ok (Z.land e 63)) = Ok ((A * x + B * y + r / 2 ^ s) mod 64).
Proof.
  intros QA QB Hx Hy Hs HR.
  rewrite (shr_div r) by lia.
  assert (0 <= r / 2 ^ s <= 1073741824) as R.
  { assert (2 ^ 2 <= 2 ^ s) by (apply Z.pow_le_mono_r; lia). change (2 ^ 2) with 4 in *. split; [apply Z.div_pos; lia|].
    apply Z.div_le_upper_bound; lia. }
  rewrite !swrap_small by lia.
  assert (0 <= A * x <= 225 * 288) by (clear - QA Hx; nia). assert (0 <= B * y <= 225 * 288) by (clear - QB Hy; nia). ias.
  change 63 with (2 ^ 6 - 1). rewrite land_mask by lia. reflexivity.
Qed.

Section Partition.
Context (seed parts : Z) (Hseed : 0 <= seed < 1024) (Hparts : 1 <= parts <= 4).
Let sd := seed + (parts - 1) * 1024.
Let rnum := hash52 sd.

Lemma hash_range : 0 <= rnum < 4294967296.
Proof.
  unfold rnum, hash52. cbv zeta. change 4294967296 with (2 ^ 32).
  assert (forall a k, 0 < k -> 0 <= a < 2 ^ 32 -> 0 <= a / k < 2 ^ 32) as D
    by (intros a k Hk Ha; split; [apply Z.div_pos; lia|apply Z.div_lt_upper_bound; nia]).
  assert (forall a, 0 <= a mod 2 ^ 32 < 2 ^ 32) as M by (intros; apply Z.mod_pos_bound; lia).
  repeat first [apply lxor_ub; [lia| |] | apply M | apply D; [reflexivity|]].
Qed.

Definition seed_val (i : Z) : Z := bfield rnum (4 * i) 4 ^ 2 / 2 ^ (
  let sh_a := if bfield sd 1 1 =? 1 then 4 else 5 in
  let sh_b := if parts =? 3 then 6 else 5 in
  if i mod 2 =? 0 then (if bfield sd 0 1 =? 1 then sh_a else sh_b) else (if bfield sd 0 1 =? 1 then sh_b else sh_a)).
Lemma seeds_ok i : 0 <= i < 8 -> idx (partition_seeds sd rnum parts) i = Ok (seed_val i).
Proof.
  intros Hi. unfold seed_val, partition_seeds. cbv zeta.
  match goal with |- context [map ?f (zrange 0 8)] => change (map f (zrange 0 8)) with (tab 8 f) end.
  rewrite idx_ok by (rewrite zlen_tab; lia). rewrite znth_tab by lia. apply (f_equal Ok).
  change (bit_set sd 2) with (bit_set sd (2 ^ 1)). change (bit_set sd 1) with (bit_set sd (2 ^ 0)). rewrite !bit_set_field by lia.
  change 15 with (2 ^ 4 - 1). rewrite land_field by lia. rewrite (Z.mul_comm i 4), Z.pow_2_r.
  rewrite shr_div by (destruct (bfield sd 0 1 =? 1), (i mod 2 =? 0), (bfield sd 1 1 =? 1), (parts =? 3); lia).
  do 2 f_equal. destruct (bfield sd 0 1 =? 1), (i mod 2 =? 0); reflexivity.
Qed.

Lemma seed_val_range i : 0 <= seed_val i <= 225.
Proof.
  unfold seed_val. pose proof (bfield_range rnum (4 * i) 4 ltac:(lia)) as R. change (2 ^ 4) with 16 in R.
  match goal with |- context [_ / 2 ^ ?k] => assert (0 < 2 ^ k) as K by
    (apply Z.pow_pos_nonneg; [lia|]; destruct (i mod 2 =? 0), (bfield sd 0 1 =? 1), (bfield sd 1 1 =? 1), (parts =? 3); lia);
    generalize dependent (2 ^ k) end. intros K HK.
  generalize dependent (bfield rnum (4 * i) 4). intros c R. rewrite Z.pow_2_r.
  clear - HK R. split; [apply Z.div_pos; nia|apply Z.div_le_upper_bound; nia].
Qed.

Lemma term_ok m i x y s : 0 <= i < 7 -> 0 <= x <= 288 -> 0 <= y <= 288 -> 2 <= s ->
  (let* a := idx (partition_seeds sd rnum parts) i in
   let* b := idx (partition_seeds sd rnum parts) (i + 1) in
   let* c := ia m 32 (a * swrap 32 x) in
   let* d := ia m 32 (b * swrap 32 y) in
   let* e := ia m 32 (c + d) in
   let* e := ia m 32 (e + swrap 32 (Z.shiftr rnum s)) in
   Ok (Z.land e 63)) = Ok ((seed_val i * x + seed_val (i + 1) * y + rnum / 2 ^ s) mod 64).
Proof.
  intros Hi Hx Hy Hs. rewrite !seeds_ok by lia.
  pose proof (seed_val_range i) as QA. pose proof (seed_val_range (i + 1)) as QB. pose proof hash_range as HR. revert QA QB HR.
  generalize (seed_val i) (seed_val (i + 1)) rnum. intros A B r QA QB HR. cbn [bind]. apply term_gen; auto.
Qed.

Lemma partition_of_ok m (small : bool) x y : 0 <= x <= 144 -> 0 <= y <= 144 ->
  partition_of m (partition_seeds sd rnum parts) rnum parts (Z.shiftl x (if small then 1 else 0)) (Z.shiftl y (if small then 1 else 0))
    = Ok (partition seed parts x y small).
Proof.
  intros Hx Hy. unfold partition_of, partition. fold sd rnum. cbv zeta.
  set (X := if small then 2 * x else x). set (Y := if small then 2 * y else y).
  assert (Z.shiftl x (if small then 1 else 0) = X) as -> by (unfold X; destruct small; rewrite shl_mul by lia; lia).
  assert (Z.shiftl y (if small then 1 else 0) = Y) as -> by (unfold Y; destruct small; rewrite shl_mul by lia; lia).
  assert (0 <= X <= 288) as HX by (unfold X; destruct small; lia). assert (0 <= Y <= 288) as HY by (unfold Y; destruct small; lia).
  rewrite !term_ok by lia. cbn [bind]. unfold seed_val.
  change (0 + 1) with 1. change (2 + 1) with 3. change (4 + 1) with 5. change (6 + 1) with 7.
  change (0 mod 2 =? 0) with true. change (1 mod 2 =? 0) with false. change (2 mod 2 =? 0) with true. change (3 mod 2 =? 0) with false.
  change (4 mod 2 =? 0) with true. change (5 mod 2 =? 0) with false. change (6 mod 2 =? 0) with true. change (7 mod 2 =? 0) with false.
  cbv iota zeta.
  change (4 * 0) with 0. change (4 * 1) with 4. change (4 * 2) with 8. change (4 * 3) with 12.
  change (4 * 4) with 16. change (4 * 5) with 20. change (4 * 6) with 24. change (4 * 7) with 28.
  change (4 * (1 - 1)) with 0. change (4 * (2 - 1)) with 4. change (4 * (3 - 1)) with 8. change (4 * (4 - 1)) with 12.
  change (4 * (5 - 1)) with 16. change (4 * (6 - 1)) with 20. change (4 * (7 - 1)) with 24. change (4 * (8 - 1)) with 28.
  destruct (bfield sd 0 1 =? 1); cbv iota; destruct (parts <? 3), (parts <? 4); cbn [bind]; reflexivity.
Qed.

Lemma partition_range small x y : 2 <= parts -> 0 <= partition seed parts x y small < parts.
Proof.
  intros P2. unfold partition. fold sd rnum. cbv zeta.
  destruct (if bfield sd 0 1 =? 1 then _ else _) as [sh1 sh2].
  match goal with |- context [(?b <=? ?a) && _ && _] => set (va := a); set (vb := b) end.
  assert (0 <= va) by (apply Z.mod_pos_bound; lia). assert (0 <= vb) by (apply Z.mod_pos_bound; lia).
  match goal with |- context [(?c <=? vb) && (?d <=? vb)] => set (vc := c); set (vd := d) end.
  assert (parts < 3 -> vc = 0) by (intros; unfold vc; destruct (Z.ltb_spec parts 3); [auto|lia]).
  assert (parts < 4 -> vd = 0) by (intros; unfold vd; destruct (Z.ltb_spec parts 4); [auto|lia]).
  assert (0 <= vc) by (unfold vc; destruct (parts <? 3); [lia|apply Z.mod_pos_bound; lia]).
  clearbody va vb vc vd.
  destruct (Z.leb_spec vb va), (Z.leb_spec vc va), (Z.leb_spec vd va), (Z.leb_spec vc vb), (Z.leb_spec vd vb), (Z.leb_spec vd vc);
    cbn [andb]; try lia.
Qed.
End Partition.

(** The array `partition`. *)
Lemma select_partition_ok m buf bw bh parts : bytes buf -> 16 <= zlen buf ->
  1 <= bw -> 1 <= bh -> bw * bh <= 144 -> 1 <= parts <= 4 ->
  exists ps, select_partition m buf bw bh parts = Ok ps /\ zlen ps = 144 /\
    forall j, 0 <= j < bw * bh ->
      znth ps j = partition (bfield (astc_word buf) 13 10) parts (j mod bw) (j / bw) (bw * bh <? 31).
Proof.
  intros Hb Hl Hbw Hbh Ha Hp. unfold select_partition.
  rewrite ua_ok by nia. cbn [bind]. rewrite slice_ok by lia. cbn [bind].
  change (firstn (Z.to_nat (4 - 0)) (skipn (Z.to_nat 0) buf)) with (firstn (Z.to_nat 4) buf).
  set (W := astc_word buf). pose proof (bfield_range W 13 10 ltac:(lia)) as R. change (2 ^ 10) with 1024 in R.
  assert (Z.lor (Z.land (Z.shiftr (swrap 32 (le_bytes (firstn (Z.to_nat 4) buf))) 13) 1023) (Z.shiftl (parts - 1) 10)
    = bfield W 13 10 + (parts - 1) * 1024) as ->.
  { change 1023 with (2 ^ 10 - 1). rewrite land_field by lia. rewrite swrap_field by lia.
    rewrite le_firstn by (auto; lia). change (8 * 4) with 32. rewrite bfield_mod by lia.
    assert (bfield (le_bytes buf) 13 10 = bfield W 13 10) as ->.
    { unfold W, astc_word. change 16%nat with (Z.to_nat 16). rewrite le_firstn by (auto; lia). change (8 * 16) with 128. rewrite bfield_mod by lia. reflexivity. }
    rewrite shl_mul by lia. rewrite Z.lor_comm, lor_add by lia. lia. }
  set (seed := bfield W 13 10) in *. cbv zeta.
  rewrite hash_ok by lia.
  match goal with |- context [for_range 0 bh (fun t st => for_range 0 bw (@?f t) st) (?l0, 0)] => set (body := f);
    destruct (refill2 0 bw bh body (fun j => partition seed parts (j mod bw) (j / bw) (bw * bh <? 31)) l0) as (ps & E & G1 & G2) end.
  - lia.
  - lia.
  - change (zlen (repeat 0 144)) with 144. lia.
  - intros t s l Ht Hs Lls Hk _. unfold body. cbv beta iota.
    rewrite partition_of_ok by nia. cbn [bind]. rewrite upd_ok by lia. cbn [bind].
    assert ((bw * t + s) mod bw = s) as -> by (symmetry; apply Z.mod_unique with t; lia).
    assert ((bw * t + s) / bw = t) as -> by (symmetry; apply Z.div_unique with s; lia). reflexivity.
  - match goal with |- context [bind (for_range 0 bh ?f ?s) _] =>
      change (for_range 0 bh f s) with (for_range 0 bh (fun y st => for_range 0 bw (body y) st) (repeat 0 144, 0)) end.
    rewrite E. cbn [bind]. exists ps. split; [auto|]. split; [exact G1|].
    intros j Hj. unfold znth. rewrite G2 by lia. destruct (Z.ltb_spec j (bw * bh)); [reflexivity|lia].
Qed.

(** ** Interpolation *)
Lemma select_color_ok m e0 e1 w : 0 <= e0 < 256 -> 0 <= e1 < 256 -> 0 <= w <= 64 ->
  select_color m e0 e1 w = Ok (ldr_texel e0 e1 w) /\ is_byte (ldr_texel e0 e1 w).
Proof.
  intros H0 H1 Hw. unfold select_color, ldr_texel. cbv zeta.
  assert (forall e, 0 <= e < 256 -> Z.lor (shl32 e 8) e = e * 257) as D by (intros; rewrite shl32_mul, lor_add by lia; lia).
  rewrite !D by lia. rewrite ia_ok by lia. cbn [bind].
  assert (0 <= e0 * 257 * (64 - w) <= 65535 * (64 - w)) by (split; [apply Z.mul_nonneg_nonneg|apply Z.mul_le_mono_nonneg_r]; lia).
  assert (0 <= e1 * 257 * w <= 65535 * w) by (split; [apply Z.mul_nonneg_nonneg|apply Z.mul_le_mono_nonneg_r]; lia).
  do 4 (rewrite ia_ok by lia; cbn [bind]). rewrite shr_div by lia. change (2 ^ 6) with 64.
  set (q := (e0 * 257 * (64 - w) + e1 * 257 * w + 32) / 64).
  assert (0 <= q <= 65535) by (split; [apply Z.div_pos|apply Z.lt_succ_r, Z.div_lt_upper_bound]; lia).
  do 2 (rewrite ia_ok by lia; cbn [bind]). rewrite Z.quot_div_nonneg by lia.
  assert (0 <= (q * 255 + 32768) / 65536 < 256) by (split; [apply Z.div_pos|apply Z.div_lt_upper_bound]; lia).
  unfold u8, is_byte. rewrite Z.mod_small by lia. split; auto; lia.
Qed.

(** The byte of a non-negative half in `select_color_hdr`. *)
Definition hdr_byte (m : build) (f : f32) : res Z :=
  match f with
  | S754_nan | S754_infinity _ => Ok 255
  | _ => let* x := floor_f32 m (f32_mul f f32_255) in Ok (clampz 0 255 (f32_as (- 2 ^ 31) (2 ^ 31 - 1) x))
  end.
Lemma hdr_sub_sweep : all_below 1024 (fun f =>
  is_ok_byte (hdr_byte Checked (fp16_ieee_to_fp32_value f)) (half_byte f) &&
  is_ok_byte (hdr_byte Wrapping (fp16_ieee_to_fp32_value f)) (half_byte f)) = true.
Proof. vm_cast_no_check (eq_refl true). Qed.

Lemma as_of_int i : 0 <= i < 2 ^ 24 -> f32_as (- 2 ^ 31) (2 ^ 31 - 1) (f32_of_int i) = i.
Proof.
  intros H. destruct (Z.eq_dec i 0) as [->|N]; [reflexivity|].
  destruct (of_int_exact i) as (r & k & Hk & Hr & Hb & -> & _); [lia|].
  unfold f32_as. assert (f32_trunc (S754_finite false r (- k)) = i) as ->; [|lia].
  cbn [f32_trunc]. rewrite Hr. rewrite Z.opp_involutive. destruct (Z.leb_spec 0 (- k)).
  - assert (k = 0) as -> by lia. change (2 ^ (- 0)) with 1. change (2 ^ 0) with 1. lia.
  - apply Z.div_mul. apply Z.pow_nonzero; lia.
Qed.

Lemma hdr_byte_ok m h : 0 <= h < 32768 ->
  hdr_byte m (fp16_ieee_to_fp32_value h) = Ok (if half_exp h =? 31 then 255 else half_byte h).
Proof.
  intros H. destruct (half_split h ltac:(lia)) as (s & e & f & Hs & He & Hf & E).
  assert (s = 0) as -> by lia. clear Hs. assert (half_exp h = e) as HE.
  { unfold half_exp. assert (h / 2 ^ 10 = e) as -> by (symmetry; apply Z.div_unique with f; lia). apply Z.mod_small; lia. }
  assert (e = 0 \/ 1 <= e <= 30 \/ e = 31) as [Z0|[He'|Z0]] by lia.
  - rewrite HE, Z0. cbn [Z.eqb]. pose proof (all_below_spec _ _ hdr_sub_sweep f Hf) as S. cbv beta in S. apply andb_prop in S as [S1 S2].
    assert (h = f) as -> by lia. destruct m; apply is_ok_byte_spec; auto.
  - rewrite HE. destruct (Z.eqb_spec e 31); [lia|].
    pose proof (normal_byte 0 e f He' Hf) as NB. pose proof (half_255 0 e f (or_introl eq_refl) He' Hf) as (r & k & Hk & Hr & Hb & M).
    pose proof (half_value 0 e f (or_introl eq_refl) He' Hf) as V. rewrite <- E in NB, M, V.
    rewrite NB. cbn [Z.eqb] in *. unfold hdr_byte. rewrite V. rewrite <- V, M. unfold floor_f32.
    assert (f32_as (- 2 ^ 31) (2 ^ 31 - 1) (S754_finite false r (e - 25 - k)) = 255 * half_num h / 2 ^ 24) as Hi.
    { unfold f32_as. rewrite (trunc_255 0 e f He' Hf r k false Hk Hr), <- E.
      pose proof (q_bounds 0 e f He' Hf) as Q. rewrite <- E in Q. lia. }
    rewrite Hi. change (f32_lt (S754_finite false r (e - 25 - k)) f32_zero) with false. cbn [andb bind]. f_equal.
    pose proof (q_bounds 0 e f He' Hf) as Q. rewrite <- E in Q.
    rewrite as_of_int by lia. unfold clampz. destruct (Z.ltb_spec (255 * half_num h / 2 ^ 24) 0), (Z.ltb_spec 255 (255 * half_num h / 2 ^ 24)); lia.
  - rewrite HE, Z0. cbn [Z.eqb Pos.eqb]. pose proof (special_value 0 f (or_introl eq_refl) Hf) as V. rewrite E, Z0, V.
    destruct (f =? 0); reflexivity.
Qed.

Lemma select_color_hdr_ok m e0 e1 w : 0 <= e0 < 4096 -> 0 <= e1 < 4096 -> 0 <= w <= 64 ->
  select_color_hdr m e0 e1 w = Ok (hdr_texel e0 e1 w) /\ is_byte (hdr_texel e0 e1 w).
Proof.
  intros H0 H1 Hw. unfold select_color_hdr, hdr_texel. cbv zeta.
  rewrite !shl32_mul by lia. change (2 ^ 4) with 16. rewrite ia_ok by lia. cbn [bind].
  assert (0 <= e0 * 16 * (64 - w) <= 65520 * (64 - w)) by (split; [apply Z.mul_nonneg_nonneg|apply Z.mul_le_mono_nonneg_r]; lia).
  assert (0 <= e1 * 16 * w <= 65520 * w) by (split; [apply Z.mul_nonneg_nonneg|apply Z.mul_le_mono_nonneg_r]; lia).
  do 4 (rewrite ia_ok by lia; cbn [bind]). rewrite (shr_div _ 6) by lia. change (2 ^ 6) with 64.
  set (c := (e0 * 16 * (64 - w) + e1 * 16 * w + 32) / 64).
  assert (0 <= c < 65536) as Hc by (split; [apply Z.div_pos|apply Z.div_lt_upper_bound]; lia). clearbody c.
  unfold u16. rewrite Z.mod_small by lia. change 2047 with (2 ^ 11 - 1). rewrite land_mask by lia. change (2 ^ 11) with 2048.
  unfold lns_half. set (mt := c mod 2048). assert (0 <= mt < 2048) as Hm by (apply Z.mod_pos_bound; lia).
  set (mm := if mt <? 512 then 3 * mt else if mt <? 1536 then 4 * mt - 512 else 5 * mt - 2048). cbv zeta.
  assert ((if mt <? 512 then ua m 16 (mt * 3) else if mt <? 1536 then let* x := ua m 16 (4 * mt) in ua m 16 (x - 512)
    else let* x := ua m 16 (5 * mt) in ua m 16 (x - 2048)) = Ok mm) as ->.
  { unfold mm. destruct (Z.ltb_spec mt 512); [rewrite ua_ok by lia; f_equal; lia|].
    destruct (Z.ltb_spec mt 1536); rewrite ua_ok by lia; cbn [bind]; rewrite ua_ok by lia; reflexivity. }
  cbn [bind]. assert (0 <= mm < 8192) as Hmm by (unfold mm; destruct (Z.ltb_spec mt 512); [lia|destruct (Z.ltb_spec mt 1536); lia]).
  clearbody mm. set (h := c / 2048 * 1024 + mm / 8).
  assert (0 <= mm / 8 < 1024) as Hm8 by (split; [apply Z.div_pos|apply Z.div_lt_upper_bound]; lia).
  assert (0 <= c / 2048 < 32) as Hce by (split; [apply Z.div_pos|apply Z.div_lt_upper_bound]; lia).
  assert (Z.lor (Z.land (Z.shiftr c 1) 31744) (Z.shiftr mm 3) = h) as ->.
  { change 31744 with (2 ^ 10 * (2 ^ 5 - 1)). rewrite land_shifted by lia. rewrite !shr_div by lia. change (2 ^ 3) with 8.
    rewrite Z.div_div by lia. change (2 ^ 1 * 2 ^ 10) with 2048. change (2 ^ 5) with 32. rewrite (Z.mod_small (c / 2048)) by lia.
    rewrite Z.mul_comm, lor_add by (change (2 ^ 10) with 1024; lia). reflexivity. }
  assert (0 <= h < 32768) as Hh by (unfold h; lia). clearbody h.
  pose proof (hdr_byte_ok m h Hh) as HB. split.
  - rewrite <- HB. unfold hdr_byte. destruct (fp16_ieee_to_fp32_value h); reflexivity.
  - destruct (half_exp h =? 31); [unfold is_byte; lia|apply half_byte_range].
Qed.

(** ** The end points are bytes (LDR) or 12-bit numbers (HDR) *)
Definition channel_hdr (cem c : Z) : bool := if c =? 3 then hdr_alpha_mode cem else hdr_color_mode cem.
Definition channel_max (cem c : Z) : Z := if channel_hdr cem c then 4095 else 255.
Definition quad_in (cem : Z) (e : quad) : Prop :=
  let '(r, g, b, a) := e in
  0 <= r <= channel_max cem 0 /\ 0 <= g <= channel_max cem 1 /\ 0 <= b <= channel_max cem 2 /\ 0 <= a <= channel_max cem 3.

Lemma clamp_in hi x : 0 <= hi -> 0 <= clamp hi x <= hi.
Proof. unfold clamp. lia. Qed.
Lemma clamp_id hi x : 0 <= x <= hi -> clamp hi x = x.
Proof. unfold clamp. lia. Qed.

Lemma hdr11_in sx cem v0 v1 v2 v3 v4 v5 a0 a1 : cem = 11 \/ cem = 14 \/ cem = 15 ->
  0 <= v0 < 256 -> 0 <= v1 < 256 -> 0 <= v2 < 256 -> 0 <= v3 < 256 -> 0 <= v4 < 256 -> 0 <= v5 < 256 ->
  0 <= a0 <= channel_max cem 3 -> 0 <= a1 <= channel_max cem 3 ->
  quad_in cem (fst (hdr11 sx v0 v1 v2 v3 v4 v5 a0 a1)) /\ quad_in cem (snd (hdr11 sx v0 v1 v2 v3 v4 v5 a0 a1)).
Proof.
  intros Hc H0 H1 H2 H3 H4 H5 A0 A1.
  assert (channel_max cem 0 = 4095 /\ channel_max cem 1 = 4095 /\ channel_max cem 2 = 4095 /\ channel_max cem 3 <= 4095) as (E0 & E1 & E2 & E3)
    by (destruct Hc as [-> | [-> | ->]]; vm_compute; intuition congruence).
  unfold quad_in. rewrite E0, E1, E2. unfold hdr11.
  pose proof (bfield_range v4 0 7 ltac:(lia)) as B4. pose proof (bfield_range v5 0 7 ltac:(lia)) as B5. change (2 ^ 7) with 128 in *.
  destruct (hdr11_majcomp v4 v5 =? 3).
  - cbn [fst snd]. lia.
  - cbv zeta. destruct (hdr11_majcomp v4 v5 =? 1); [|destruct (hdr11_majcomp v4 v5 =? 2)]; cbn [fst snd];
      rewrite (clamp_id 4095 a0), (clamp_id 4095 a1) by lia; repeat split; try apply clamp_in; lia.
Qed.

Lemma ends_in sx cem v : 0 <= cem < 16 -> (forall k, 0 <= k < 8 -> 0 <= v k < 256) ->
  quad_in cem (fst (end_points_with sx cem v)) /\ quad_in cem (snd (end_points_with sx cem v)).
Proof.
  intros Hc Hv.
  pose proof (Hv 0 ltac:(lia)) as V0. pose proof (Hv 1 ltac:(lia)) as V1. pose proof (Hv 2 ltac:(lia)) as V2. pose proof (Hv 3 ltac:(lia)) as V3.
  pose proof (Hv 4 ltac:(lia)) as V4. pose proof (Hv 5 ltac:(lia)) as V5. pose proof (Hv 6 ltac:(lia)) as V6. pose proof (Hv 7 ltac:(lia)) as V7.
  assert (forall a b, 0 <= a < 256 -> 0 <= b < 256 -> 0 <= a * b / 256 <= 255) as P.
  { intros a b Ha Hb. split; [apply Z.div_pos; nia|]. apply Z.lt_succ_r, Z.div_lt_upper_bound; nia. }
  assert (forall a b, 0 <= a < 256 -> 0 <= b < 256 -> 0 <= (a + b) / 2 <= 255) as M.
  { intros a b Ha Hb. split; [apply Z.div_pos; lia|]. apply Z.lt_succ_r, Z.div_lt_upper_bound; lia. }
  enum cem Hc; cbn [end_points_with].
  - cbn [fst snd quad_in]. unfold channel_max. cbn. lia.
  - cbv zeta. cbn [fst snd quad_in]. unfold channel_max. cbn -[Z.min Z.div Z.mul].
    pose proof (bfield_range (v 1) 6 2 ltac:(lia)) as B. change (2 ^ 2) with 4 in B. pose proof (bfield_range (v 1) 0 6 ltac:(lia)) as B'. change (2 ^ 6) with 64 in B'.
    assert (0 <= v 0 / 4 < 64) by (split; [apply Z.div_pos|apply Z.div_lt_upper_bound]; lia). lia.
  - unfold channel_max. destruct (Z.leb_spec (v 0) (v 1)); cbn -[Z.mul]; lia.
  - unfold channel_max. pose proof (bfield_range (v 1) 5 3 ltac:(lia)) as B1. pose proof (bfield_range (v 0) 0 7 ltac:(lia)) as B2.
    pose proof (bfield_range (v 1) 0 5 ltac:(lia)) as B3. pose proof (bfield_range (v 1) 4 4 ltac:(lia)) as B4. pose proof (bfield_range (v 1) 0 4 ltac:(lia)) as B5.
    change (2 ^ 3) with 8 in *. change (2 ^ 7) with 128 in *. change (2 ^ 5) with 32 in *. change (2 ^ 4) with 16 in *.
    change (2 ^ 9) with 512. change (2 ^ 8) with 256.
    destruct (bfield (v 0) 7 1 =? 1); cbv zeta; cbn [fst snd quad_in]; unfold channel_max; cbn -[Z.min Z.mul bfield]; lia.
  - cbn [fst snd quad_in]. unfold channel_max. cbn. lia.
  - cbv zeta. cbn [fst snd quad_in clamp4]. unfold channel_max. cbn [channel_hdr Z.eqb Pos.eqb existsb hdr_alpha_mode hdr_color_mode orb].
    repeat split; apply clamp_in; lia.
  - cbn [fst snd quad_in]. unfold channel_max. cbn -[Z.div Z.mul]. pose proof (P _ _ V0 V3). pose proof (P _ _ V1 V3). pose proof (P _ _ V2 V3). lia.
  - unfold hdr7. cbv zeta.
    match goal with |- context [let '(_, _) := ?x in _] => destruct x as [majcomp mode] end.
    match goal with |- context [let '(_, _) := (if ?c then _ else _) in _] => destruct c end;
    (destruct (majcomp =? 1); [|destruct (majcomp =? 2)]); cbn [fst snd quad_in]; unfold channel_max;
      cbn [channel_hdr Z.eqb Pos.eqb existsb hdr_alpha_mode hdr_color_mode orb]; repeat split; try apply clamp_in; lia.
  - destruct (_ <=? _); cbn [fst snd quad_in blue_contract]; unfold channel_max; cbn -[Z.div Z.mul Z.add];
      pose proof (M _ _ V0 V4); pose proof (M _ _ V2 V4); pose proof (M _ _ V1 V5); pose proof (M _ _ V3 V5); lia.
  - cbv zeta. destruct (_ <=? _); cbn [fst snd quad_in blue_contract clamp4]; unfold channel_max;
      cbn [channel_hdr Z.eqb Pos.eqb existsb hdr_alpha_mode hdr_color_mode orb]; repeat split; apply clamp_in; lia.
  - cbn [fst snd quad_in]. unfold channel_max. cbn -[Z.div Z.mul]. pose proof (P _ _ V0 V3). pose proof (P _ _ V1 V3). pose proof (P _ _ V2 V3). lia.
  - apply hdr11_in; auto; vm_compute; intuition congruence.
  - destruct (_ <=? _); cbn [fst snd quad_in blue_contract]; unfold channel_max; cbn -[Z.div Z.mul Z.add];
      pose proof (M _ _ V0 V4); pose proof (M _ _ V2 V4); pose proof (M _ _ V1 V5); pose proof (M _ _ V3 V5); lia.
  - cbv zeta. destruct (_ <=? _); cbn [fst snd quad_in blue_contract clamp4]; unfold channel_max;
      cbn [channel_hdr Z.eqb Pos.eqb existsb hdr_alpha_mode hdr_color_mode orb]; repeat split; apply clamp_in; lia.
  - change (channel_max 14 3) with 255. apply hdr11_in; auto; change (channel_max 14 3) with 255; lia.
  - assert (0 <= fst (hdr_alpha (v 6) (v 7)) <= 4095 /\ 0 <= snd (hdr_alpha (v 6) (v 7)) <= 4095) as [A0 A1].
    { unfold hdr_alpha. cbv zeta. pose proof (bfield_range (v 6) 7 1 ltac:(lia)) as R6. pose proof (bfield_range (v 7) 7 1 ltac:(lia)) as R7. change (2 ^ 1) with 2 in *.
      pose proof (bfield_range (v 6) 0 7 ltac:(lia)) as L6. pose proof (bfield_range (v 7) 0 7 ltac:(lia)) as L7. change (2 ^ 7) with 128 in *.
      set (mode := bfield (v 6) 7 1 + 2 * bfield (v 7) 7 1). assert (0 <= mode < 4) as Hm by (unfold mode; lia). clearbody mode.
      pose proof (fun p => bfield_range (bfield (v 7) 0 7) p (mode + 1) ltac:(lia)) as B. specialize (B (6 - mode)).
      set (x := bfield (bfield (v 7) 0 7) (6 - mode) (mode + 1)) in *. clearbody x.
      assert (mode = 0 \/ mode = 1 \/ mode = 2 \/ mode = 3) as [-> | [-> | [-> | ->]]] by lia; cbn [Z.eqb Pos.eqb fst snd];
        try (split; [|apply clamp_in; lia]).
      - change (2 ^ (0 + 1)) with 2 in B. change (2 ^ (4 - 0)) with 16. lia.
      - change (2 ^ (1 + 1)) with 4 in B. change (2 ^ (4 - 1)) with 8. lia.
      - change (2 ^ (2 + 1)) with 8 in B. change (2 ^ (4 - 2)) with 4. lia.
      - lia. }
    destruct (hdr_alpha (v 6) (v 7)) as [a0 a1]. cbn [fst snd] in A0, A1. apply hdr11_in; auto.
Qed.
