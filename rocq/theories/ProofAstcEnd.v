(** * ASTC colour values and end points *)
From Verif Require Import Base BaseLemmas BitLemmas FieldLemmas ModelBits ProofDecoder ProofBits ProofPvrInfo ModelAstc SpecAstc SpecAstcCode ProofAstcSeq ProofAstcParams.

(** ** Ranges of sequence entries *)
Definition radix_digits (k : radix) : Z := match k with Bits => 1 | Trits => 3 | Quints => 5 end.

Lemma trit_range_sweep : all_below 256 (fun x => forallb (fun j => (0 <=? znth (trit_digits x) j) && (znth (trit_digits x) j <? 3)) [0; 1; 2; 3; 4]) = true.
Proof. vm_cast_no_check (eq_refl true). Qed.
Lemma quint_range_sweep : all_below 128 (fun x => forallb (fun j => (0 <=? znth (quint_digits x) j) && (znth (quint_digits x) j <? 5)) [0; 1; 2]) = true.
Proof. vm_cast_no_check (eq_refl true). Qed.

Lemma digits_range k x j : 0 <= x < 2 ^ zsum (pieces k) -> 0 <= j < per_block k -> 0 <= znth (digits k x) j < radix_digits k.
Proof.
  destruct k; intros Hx Hj.
  - change (per_block Bits) with 1 in Hj. replace j with 0 by lia. cbn. lia.
  - change (2 ^ zsum (pieces Trits)) with 256 in Hx. change (per_block Trits) with 5 in Hj. 
    pose proof (all_below_spec _ _ trit_range_sweep x Hx) as A. rewrite forallb_forall in A.
    assert (In j [0; 1; 2; 3; 4]) as I by (cbn; lia). apply A in I. apply andb_true_iff in I. destruct I as [I1 I2].
    apply Z.leb_le in I1. apply Z.ltb_lt in I2. cbn [digits radix_digits]. lia.
  - change (2 ^ zsum (pieces Quints)) with 128 in Hx. change (per_block Quints) with 3 in Hj. 
    pose proof (all_below_spec _ _ quint_range_sweep x Hx) as A. rewrite forallb_forall in A.
    assert (In j [0; 1; 2]) as I by (cbn; lia). apply A in I. apply andb_true_iff in I. destruct I as [I1 I2].
    apply Z.leb_le in I1. apply Z.ltb_lt in I2. cbn [digits radix_digits]. lia.
Qed.

Lemma entry_range k n sq i : 0 <= n ->
  0 <= fst (seq_entry k n sq i) < 2 ^ n /\ 0 <= snd (seq_entry k n sq i) < radix_digits k.
Proof.
  intros Hn. unfold seq_entry. cbn [fst snd]. split; [apply bfield_range; auto|].
  apply digits_range; [apply packed_range; auto|]. apply Z.mod_pos_bound. destruct k; cbn; lia.
Qed.

(** ** Colour unquantization *)
Definition ep_check (m : build) (kn : radix * Z) : bool :=
  let '(k, n) := kn in
  all_below (2 ^ n) (fun v => all_below (radix_digits k) (fun d =>
    match unquant_endpoint m (radix_code k) n (v, d) with
    | Ok r => (r =? color_value k n (v, d)) && (0 <=? r) && (r <? 256)
    | _ => false
    end)).
Lemma ep_sweep m : forallb (ep_check m) code_quants = true.
Proof. destruct m; vm_cast_no_check (eq_refl true). Qed.

Lemma unquant_code_ok m k n e : In (k, n) code_quants -> 0 <= fst e < 2 ^ n -> 0 <= snd e < radix_digits k ->
  unquant_endpoint m (radix_code k) n e = Ok (color_value k n e) /\ 0 <= color_value k n e < 256.
Proof.
  intros I H1 H2. destruct e as [v d]. cbn [fst snd] in *.
  pose proof (ep_sweep m) as S. rewrite forallb_forall in S. apply S in I. unfold ep_check in I.
  pose proof (all_below_spec _ _ I v H1) as I1. cbv beta in I1.
  pose proof (all_below_spec _ _ I1 d H2) as I2. cbv beta in I2.
  destruct (unquant_endpoint m (radix_code k) n (v, d)) as [r| |]; try discriminate.
  rewrite !andb_true_iff in I2. destruct I2 as [[A B] C]. apply Z.eqb_eq in A. apply Z.leb_le in B. apply Z.ltb_lt in C.
  subst r. split; auto.
Qed.
Lemma in_code q : In q color_quants -> In q code_quants.
Proof. intros I. unfold code_quants. apply in_or_app. auto. Qed.
Lemma unquant_endpoint_ok m k n e : In (k, n) color_quants -> 0 <= fst e < 2 ^ n -> 0 <= snd e < radix_digits k ->
  unquant_endpoint m (radix_code k) n e = Ok (color_value k n e) /\ 0 <= color_value k n e < 256.
Proof. intros I. apply unquant_code_ok, in_code, I. Qed.
Lemma code_quants_ok k n : In (k, n) code_quants -> quant_ok k n.
Proof.
  intros I. cbn [In code_quants color_quants app] in I.
  repeat (destruct I as [I|I]; [injection I as <- <-; cbn [quant_ok]; lia|]). contradiction.
Qed.

(** ** Checked arithmetic on small values *)
Lemma swrap_small x : -2147483648 <= x < 2147483648 -> swrap 32 x = x.
Proof. intros H. unfold swrap. change (2 ^ 32) with 4294967296. change (2 ^ (32 - 1)) with 2147483648. cbv zeta.
  match goal with |- (if ?a <? _ then _ else _) = _ => destruct (Z.ltb_spec a 2147483648) end; dlia. Qed.
Lemma ia32 m x : -2147483648 <= x < 2147483648 -> ia m 32 x = Ok x.
Proof. intros H. apply ia_ok. change (2 ^ (32 - 1)) with 2147483648. lia. Qed.
Lemma shl32_mul x k : 0 <= k -> -2147483648 <= x * 2 ^ k < 2147483648 -> shl32 x k = x * 2 ^ k.
Proof. intros Hk H. unfold shl32. rewrite shl_mul by lia. apply swrap_small; auto. Qed.
Lemma shl32_byte x k : 0 <= x < 256 -> 0 <= k <= 16 -> shl32 x k = Z.shiftl x k.
Proof.
  intros Hx Hk. rewrite shl_mul by lia. apply shl32_mul; [lia|].
  assert (1 <= 2 ^ k <= 2 ^ 16) by (split; [apply (Z.pow_le_mono_r 2 0 k); lia|apply Z.pow_le_mono_r; lia]).
  change (2 ^ 16) with 65536 in *. nia.
Qed.
Lemma ishl32 m x k : 0 <= k < 32 -> -2147483648 <= x * 2 ^ k < 2147483648 -> ishl m 32 x k = Ok (x * 2 ^ k).
Proof. intros Hk H. unfold ishl. rewrite sh_amt_ok by lia. cbn [bind]. rewrite shl_mul by lia. rewrite swrap_small by lia. reflexivity. Qed.
Ltac sb := repeat match goal with |- context [shl32 ?v ?k] => is_var v; rewrite (shl32_byte v k) by lia end.
Ltac ias := repeat (rewrite ia32 by lia; cbn [bind]).

(** ** End points *)
Definition row_of (e : quad * quad) : list Z :=
  let '((r0, g0, b0, a0), (r1, g1, b1, a1)) := e in [r0; g0; b0; a0; r1; g1; b1; a1].

Lemma clampz_clamp hi x : 0 <= hi -> clampz 0 hi x = clamp hi x.
Proof. intros. unfold clampz, clamp. destruct (Z.ltb_spec x 0), (Z.ltb_spec hi x); lia. Qed.

Lemma transfer_a_ok x : 0 <= x < 256 ->
  (if bit_set (Z.land (Z.shiftr x 1) 0x3f) 0x20 then Z.land (Z.shiftr x 1) 0x3f - 0x40 else Z.land (Z.shiftr x 1) 0x3f) = transfer_a x.
Proof. intros H. bytesweep x H. Qed.
Lemma transfer_b_ok x y : 0 <= x < 256 -> 0 <= y < 256 -> Z.lor (Z.shiftr y 1) (Z.land x 0x80) = transfer_b x y.
Proof.
  intros Hx Hy. unfold transfer_b. assert (Z.land x 0x80 = bfield x 7 1 * 2 ^ 7) as -> by bytesweep x Hx.
  rewrite shr_div by lia. change (2 ^ 1) with 2. rewrite lor_comm_add by (try dlia; lia). lia.
Qed.

Ltac len := rewrite ?zlen_cons; match goal with |- context [zlen ?r] => pose proof (zlen_nonneg r); lia end.
Lemma upd_at {A} (p : list A) (x y : A) r i : i = zlen p -> upd (p ++ x :: r) i y = Ok (p ++ y :: r).
Proof.
  intros ->. rewrite upd_ok by (rewrite zlen_app, zlen_cons; pose proof (zlen_nonneg p); pose proof (zlen_nonneg r); lia).
  f_equal. unfold zlen. rewrite Nat2Z.id. induction p; cbn [length app replace_nth]; [reflexivity|]. f_equal; auto.
Qed.
Lemma idx_at {A} (p : list A) (x : A) r i : i = zlen p -> idx (p ++ x :: r) i = Ok x.
Proof.
  intros ->. rewrite (idx_ok_d x) by (rewrite zlen_app, zlen_cons; pose proof (zlen_nonneg p); pose proof (zlen_nonneg r); lia).
  f_equal. unfold zlen. rewrite Nat2Z.id. rewrite app_nth2, Nat.sub_diag by lia. reflexivity.
Qed.

Lemma land_ub x n k : 0 <= n -> k = 2 ^ n - 1 -> 0 <= Z.land x k < 2 ^ n.
Proof. intros Hn ->. rewrite land_mask by auto. apply Z.mod_pos_bound. lia. Qed.

(** The transfer applied to the values a = b + 1 behind a prefix. *)
Lemma bit_transfer_ok m p x0 x1 r : 0 <= x0 < 256 -> 0 <= x1 < 256 ->
  bit_transfer_signed_alt m (p ++ x0 :: x1 :: r) (zlen p + 1) (zlen p) = Ok (p ++ transfer_b x1 x0 :: transfer_a x1 :: r).
Proof.
  intros H0 H1. unfold bit_transfer_signed_alt.
  assert (forall a b, idx (p ++ a :: b :: r) (zlen p + 1) = Ok b) as I1.
  { intros a b. change (p ++ a :: b :: r) with (p ++ [a] ++ b :: r). rewrite app_assoc. apply idx_at. rewrite zlen_app. reflexivity. }
  assert (forall a b y, upd (p ++ a :: b :: r) (zlen p + 1) y = Ok (p ++ a :: y :: r)) as U1.
  { intros a b y. change (p ++ a :: b :: r) with (p ++ [a] ++ b :: r). rewrite app_assoc. rewrite upd_at by (rewrite zlen_app; reflexivity).
    rewrite <- app_assoc. reflexivity. }
  rewrite idx_at by auto. cbn [bind]. rewrite I1. cbn [bind]. rewrite upd_at by auto. cbn [bind].
  rewrite I1. cbn [bind]. rewrite U1. cbn [bind]. rewrite I1. cbn [bind].
  rewrite <- transfer_a_ok, <- transfer_b_ok by auto. destruct (bit_set _ _); [|reflexivity].
  rewrite ia32 by (assert (0 <= Z.land (Z.shiftr x1 1) 0x3f < 64) by (apply (land_ub _ 6); lia); lia). cbn [bind]. rewrite U1. reflexivity.
Qed.

Lemma bt10 m x0 x1 r : 0 <= x0 < 256 -> 0 <= x1 < 256 ->
  bit_transfer_signed_alt m (x0 :: x1 :: r) 1 0 = Ok (transfer_b x1 x0 :: transfer_a x1 :: r).
Proof. intros. exact (bit_transfer_ok m [] x0 x1 r ltac:(auto) ltac:(auto)). Qed.
Lemma bt32 m a b x0 x1 r : 0 <= x0 < 256 -> 0 <= x1 < 256 ->
  bit_transfer_signed_alt m (a :: b :: x0 :: x1 :: r) 3 2 = Ok (a :: b :: transfer_b x1 x0 :: transfer_a x1 :: r).
Proof. intros. exact (bit_transfer_ok m [a; b] x0 x1 r ltac:(auto) ltac:(auto)). Qed.
Lemma bt54 m a b c d x0 x1 r : 0 <= x0 < 256 -> 0 <= x1 < 256 ->
  bit_transfer_signed_alt m (a :: b :: c :: d :: x0 :: x1 :: r) 5 4 = Ok (a :: b :: c :: d :: transfer_b x1 x0 :: transfer_a x1 :: r).
Proof. intros. exact (bit_transfer_ok m [a; b; c; d] x0 x1 r ltac:(auto) ltac:(auto)). Qed.
Lemma bt76 m a b c d e f x0 x1 r : 0 <= x0 < 256 -> 0 <= x1 < 256 ->
  bit_transfer_signed_alt m (a :: b :: c :: d :: e :: f :: x0 :: x1 :: r) 7 6 =
  Ok (a :: b :: c :: d :: e :: f :: transfer_b x1 x0 :: transfer_a x1 :: r).
Proof. intros. exact (bit_transfer_ok m [a; b; c; d; e; f] x0 x1 r ltac:(auto) ltac:(auto)). Qed.

Lemma ix0 {A} (a : A) r : idx (a :: r) 0 = Ok a. Proof. reflexivity. Qed.
Lemma ix1 {A} (a b : A) r : idx (a :: b :: r) 1 = Ok b. Proof. reflexivity. Qed.
Lemma ix2 {A} (a b c : A) r : idx (a :: b :: c :: r) 2 = Ok c. Proof. reflexivity. Qed.
Lemma ix3 {A} (a b c d : A) r : idx (a :: b :: c :: d :: r) 3 = Ok d. Proof. reflexivity. Qed.
Lemma ix4 {A} (a b c d e : A) r : idx (a :: b :: c :: d :: e :: r) 4 = Ok e. Proof. reflexivity. Qed.
Lemma ix5 {A} (a b c d e f : A) r : idx (a :: b :: c :: d :: e :: f :: r) 5 = Ok f. Proof. reflexivity. Qed.
Lemma ix6 {A} (a b c d e f g : A) r : idx (a :: b :: c :: d :: e :: f :: g :: r) 6 = Ok g. Proof. reflexivity. Qed.
Lemma ix7 {A} (a b c d e f g h : A) r : idx (a :: b :: c :: d :: e :: f :: g :: h :: r) 7 = Ok h. Proof. reflexivity. Qed.
Lemma zn0 a r : znth (a :: r) 0 = a. Proof. reflexivity. Qed.
Lemma zn1 a b r : znth (a :: b :: r) 1 = b. Proof. reflexivity. Qed.
Lemma zn2 a b c r : znth (a :: b :: c :: r) 2 = c. Proof. reflexivity. Qed.
Lemma zn3 a b c d r : znth (a :: b :: c :: d :: r) 3 = d. Proof. reflexivity. Qed.
Lemma zn4 a b c d e r : znth (a :: b :: c :: d :: e :: r) 4 = e. Proof. reflexivity. Qed.
Lemma zn5 a b c d e f r : znth (a :: b :: c :: d :: e :: f :: r) 5 = f. Proof. reflexivity. Qed.
Lemma zn6 a b c d e f g r : znth (a :: b :: c :: d :: e :: f :: g :: r) 6 = g. Proof. reflexivity. Qed.
Lemma zn7 a b c d e f g h r : znth (a :: b :: c :: d :: e :: f :: g :: h :: r) 7 = h. Proof. reflexivity. Qed.
Ltac ix := repeat (rewrite ?ix0, ?ix1, ?ix2, ?ix3, ?ix4, ?ix5, ?ix6, ?ix7; cbn [bind]).
Ltac zn := rewrite ?zn0, ?zn1, ?zn2, ?zn3, ?zn4, ?zn5, ?zn6, ?zn7.

(** *** HDR RGB with scale *)
Lemma or_at x n y : 0 <= n -> 0 <= y < 2 ^ n -> Z.lor y (x * 2 ^ n) = y + x * 2 ^ n.
Proof. intros; apply lor_comm_add; auto. Qed.

Ltac lists := repeat match goal with
  | |- Ok _ = Ok _ => apply (f_equal Ok)
  | |- ?a :: _ = ?b :: _ => apply (f_equal2 (@cons Z))
  | |- [] = [] => reflexivity
  end.

Ltac ors := repeat match goal with
  | |- context [Z.lor ?y (?x * 2 ^ ?n)] => lazymatch y with context [Z.lor] => fail | _ => rewrite (or_at x n y) by lia end
  end.

Definition hdr7_modes (M : Z) : Z * Z :=
  if M <? 12 then (M / 4, M mod 4) else if M <? 15 then (M mod 4, 4) else (0, 5).
Lemma hdr7_mode_sweep : all_below 16 (fun M =>
  let '(a, b) := if negb (Z.land M 0xc =? 0xc) then (Z.shiftr M 2, Z.land M 3)
    else if negb (M =? 0xf) then (Z.land M 3, 4) else (0, 5) in
  let '(a', b') := hdr7_modes M in (a =? a') && (b =? b') && (0 <=? a) && (a <? 3) && (0 <=? b) && (b <? 6)) = true.
Proof. vm_cast_no_check (eq_refl true). Qed.
Lemma hdr7_mode M : 0 <= M < 16 -> exists a b,
  (if negb (Z.land M 0xc =? 0xc) then (Z.shiftr M 2, Z.land M 3)
    else if negb (M =? 0xf) then (Z.land M 3, 4) else (0, 5)) = (a, b) /\
  (if M <? 12 then (M / 4, M mod 4) else if M <? 15 then (M mod 4, 4) else (0, 5)) = (a, b) /\ 0 <= a < 3 /\ 0 <= b < 6.
Proof.
  intros H. pose proof (all_below_spec _ _ hdr7_mode_sweep M H) as S. cbv beta in S. fold (hdr7_modes M).
  destruct (if negb _ then _ else _) as [a b]. destruct (hdr7_modes M) as [a' b'].
  rewrite !andb_true_iff in S. destruct S as [[[[[S1 S2] S3] S4] S5] S6].
  apply Z.eqb_eq in S1, S2. apply Z.leb_le in S3, S5. apply Z.ltb_lt in S4, S6. subst. exists a', b'. repeat split; auto.
Qed.

Lemma hdr7_ok m v0 v1 v2 v3 r : 0 <= v0 < 256 -> 0 <= v1 < 256 -> 0 <= v2 < 256 -> 0 <= v3 < 256 ->
  decode_endpoints_hdr7 m (v0 :: v1 :: v2 :: v3 :: r) = Ok (row_of (hdr7 v0 v1 v2 v3)).
Proof.
  intros H0 H1 H2 H3. unfold decode_endpoints_hdr7. ix. sb.
  assert (Z.lor (Z.lor (Z.land (Z.shiftr v2 4) 0x8) (Z.land (Z.shiftr v1 5) 0x4)) (Z.shiftr v0 6) =
    bfield v0 6 2 + 4 * bfield v1 7 1 + 8 * bfield v2 7 1) as ->.
  { assert (Z.land (Z.shiftr v2 4) 0x8 = bfield v2 7 1 * 2 ^ 3) as -> by bytesweep v2 H2.
    assert (Z.land (Z.shiftr v1 5) 0x4 = bfield v1 7 1 * 2 ^ 2) as -> by bytesweep v1 H1.
    assert (Z.shiftr v0 6 = bfield v0 6 2) as -> by bytesweep v0 H0.
    pose proof (bfield_range v0 6 2 ltac:(lia)). pose proof (bfield_range v1 7 1 ltac:(lia)). pose proof (bfield_range v2 7 1 ltac:(lia)).
    rewrite lor_add by lia. rewrite (lor_add' (2 * bfield v2 7 1 + bfield v1 7 1) _ _ 2) by lia. lia. }
  assert (Z.land v0 0x3f = bfield v0 0 6) as -> by bytesweep v0 H0.
  assert (Z.land v1 0x1f = bfield v1 0 5) as -> by bytesweep v1 H1.
  assert (Z.land v2 0x1f = bfield v2 0 5) as -> by bytesweep v2 H2.
  assert (Z.land v3 0x1f = bfield v3 0 5) as -> by bytesweep v3 H3.
  assert (Z.land v3 0x60 = (bfield v3 5 1 + 2 * bfield v3 6 1) * 2 ^ 5) as -> by bytesweep v3 H3.
  assert (Z.land v3 0x20 = bfield v3 5 1 * 2 ^ 5) as -> by bytesweep v3 H3.
  assert (Z.land v3 0xe0 = (bfield v3 5 1 + 2 * bfield v3 6 1 + 4 * bfield v3 7 1) * 2 ^ 5) as -> by bytesweep v3 H3.
  assert (Z.land (Z.shiftr v3 1) 0x40 = bfield v3 7 1 * 2 ^ 6) as -> by bytesweep v3 H3.
  assert (Z.land (Z.shiftl v3 1) 0x80 = bfield v3 6 1 * 2 ^ 7) as -> by bytesweep v3 H3.
  assert (Z.land (Z.shiftl v3 4) 0x600 = (bfield v3 5 1 + 2 * bfield v3 6 1) * 2 ^ 9) as -> by bytesweep v3 H3.
  assert (Z.land (Z.shiftl v2 1) 0x80 = bfield v2 6 1 * 2 ^ 7) as -> by bytesweep v2 H2.
  assert (Z.land (Z.shiftl v2 5) 0x400 = bfield v2 5 1 * 2 ^ 10) as -> by bytesweep v2 H2.
  assert (Z.land v2 0x20 = bfield v2 5 1 * 2 ^ 5) as -> by bytesweep v2 H2.
  assert (Z.land v2 0x60 = (bfield v2 5 1 + 2 * bfield v2 6 1) * 2 ^ 5) as -> by bytesweep v2 H2.
  assert (Z.land (Z.shiftl v2 1) 0xc0 = (bfield v2 5 1 + 2 * bfield v2 6 1) * 2 ^ 6) as -> by bytesweep v2 H2.
  assert (Z.land v1 0x20 = bfield v1 5 1 * 2 ^ 5) as -> by bytesweep v1 H1.
  assert (Z.land v1 0x60 = (bfield v1 5 1 + 2 * bfield v1 6 1) * 2 ^ 5) as -> by bytesweep v1 H1.
  assert (Z.land (Z.shiftl v1 3) 0x300 = (bfield v1 5 1 + 2 * bfield v1 6 1) * 2 ^ 8) as -> by bytesweep v1 H1.
  assert (Z.land (Z.shiftl v1 2) 0x100 = bfield v1 6 1 * 2 ^ 8) as -> by bytesweep v1 H1.
  unfold hdr7. cbv zeta.
  pose proof (bfield_range v0 6 2 ltac:(lia)) as R0. pose proof (bfield_range v1 7 1 ltac:(lia)) as R1. pose proof (bfield_range v2 7 1 ltac:(lia)) as R2.
  change (2 ^ 2) with 4 in R0. change (2 ^ 1) with 2 in R1, R2.
  assert (0 <= bfield v0 6 2 + 4 * bfield v1 7 1 + 8 * bfield v2 7 1 < 16) as RM by lia.
  revert RM. generalize (bfield v0 6 2 + 4 * bfield v1 7 1 + 8 * bfield v2 7 1). intros M RM. clear R0 R1 R2.
  destruct (hdr7_mode M RM) as (maj & mode & -> & -> & Hmaj & Hmode). clear M RM.
  pose proof (bfield_range v0 0 6 ltac:(lia)) as A0. pose proof (bfield_range v1 0 5 ltac:(lia)) as A1.
  pose proof (bfield_range v2 0 5 ltac:(lia)) as A2. pose proof (bfield_range v3 0 5 ltac:(lia)) as A3.
  pose proof (bfield_range v1 6 1 ltac:(lia)) as X0. pose proof (bfield_range v1 5 1 ltac:(lia)) as X1.
  pose proof (bfield_range v2 6 1 ltac:(lia)) as X2. pose proof (bfield_range v2 5 1 ltac:(lia)) as X3.
  pose proof (bfield_range v3 7 1 ltac:(lia)) as X4. pose proof (bfield_range v3 6 1 ltac:(lia)) as X5.
  pose proof (bfield_range v3 5 1 ltac:(lia)) as X6.
  generalize dependent (bfield v0 0 6). generalize dependent (bfield v1 0 5). generalize dependent (bfield v2 0 5). generalize dependent (bfield v3 0 5).
  generalize dependent (bfield v1 6 1). generalize dependent (bfield v1 5 1). generalize dependent (bfield v2 6 1). generalize dependent (bfield v2 5 1).
  generalize dependent (bfield v3 7 1). generalize dependent (bfield v3 6 1). generalize dependent (bfield v3 5 1).
  clear v0 v1 v2 v3 H0 H1 H2 H3. intros x6 X6 x5 X5 x4 X4 x3 X3 x2 X2 x1 X1 x0 X0 c3 A3 c2 A2 c1 A1 c0 A0.
  change (2 ^ 1) with 2 in *. change (2 ^ 5) with 32 in A1, A2, A3. change (2 ^ 6) with 64 in A0.
  enum mode Hmode; unfold onehot; cbn [existsb Z.eqb Pos.eqb orb negb];
    match goal with |- context [znth ?l ?k] => let v := eval vm_compute in (znth l k) in change (znth l k) with v end;
    ors; rewrite ?shl32_mul by lia; ias;
    (enum maj Hmaj; cbn [Z.eqb Pos.eqb row_of]; unfold set_endpoint_hdr_clamp; cbn [map];
     rewrite !clampz_clamp by lia; lists; (reflexivity || (f_equal; lia))).
Qed.

(** *** HDR RGB *)
Lemma delta_sweep : all_below 8 (fun mode => all_below 256 (fun x => hdr11_delta mode x =? extend16 (hdr11_dbits mode) x)) = true.
Proof. vm_cast_no_check (eq_refl true). Qed.
Lemma delta_ok mode x : 0 <= mode < 8 -> 0 <= x < 256 -> hdr11_delta mode x = extend16 (hdr11_dbits mode) x.
Proof. intros H1 H2. apply Z.eqb_eq. exact (all_below_spec _ _ (all_below_spec _ _ delta_sweep mode H1) x H2). Qed.

Lemma extend16_range n x : 0 <= extend16 n x < 65536.
Proof. apply Z.mod_pos_bound. lia. Qed.

Lemma hdr11_ok m v0 v1 v2 v3 v4 v5 r a0 a1 :
  0 <= v0 < 256 -> 0 <= v1 < 256 -> 0 <= v2 < 256 -> 0 <= v3 < 256 -> 0 <= v4 < 256 -> 0 <= v5 < 256 ->
  decode_endpoints_hdr11 m (v0 :: v1 :: v2 :: v3 :: v4 :: v5 :: r) a0 a1 = Ok (row_of (hdr11 extend16 v0 v1 v2 v3 v4 v5 a0 a1)).
Proof.
  intros H0 H1 H2 H3 H4 H5. unfold decode_endpoints_hdr11. ix. sb.
  assert (Z.lor (Z.shiftr v4 7) (Z.land (Z.shiftr v5 6) 2) = hdr11_majcomp v4 v5) as ->.
  { unfold hdr11_majcomp. assert (Z.shiftr v4 7 = bfield v4 7 1) as -> by bytesweep v4 H4.
    assert (Z.land (Z.shiftr v5 6) 2 = bfield v5 7 1 * 2 ^ 1) as -> by bytesweep v5 H5.
    rewrite or_at by (try apply bfield_range; lia). lia. }
  assert (Z.lor (Z.lor (Z.shiftr v1 7) (Z.land (Z.shiftr v2 6) 2)) (Z.land (Z.shiftr v3 5) 4) = hdr11_mode v1 v2 v3) as ->.
  { unfold hdr11_mode. assert (Z.shiftr v1 7 = bfield v1 7 1) as -> by bytesweep v1 H1.
    assert (Z.land (Z.shiftr v2 6) 2 = bfield v2 7 1 * 2 ^ 1) as -> by bytesweep v2 H2.
    assert (Z.land (Z.shiftr v3 5) 4 = bfield v3 7 1 * 2 ^ 2) as -> by bytesweep v3 H3.
    pose proof (bfield_range v1 7 1 ltac:(lia)). pose proof (bfield_range v2 7 1 ltac:(lia)).
    ors. lia. }
  assert (0 <= hdr11_mode v1 v2 v3 < 8) as Hmode.
  { unfold hdr11_mode. pose proof (bfield_range v1 7 1 ltac:(lia)). pose proof (bfield_range v2 7 1 ltac:(lia)). pose proof (bfield_range v3 7 1 ltac:(lia)). lia. }
  assert (0 <= hdr11_majcomp v4 v5 < 4) as Hmaj.
  { unfold hdr11_majcomp. pose proof (bfield_range v4 7 1 ltac:(lia)). pose proof (bfield_range v5 7 1 ltac:(lia)). lia. }
  rewrite !delta_ok by auto.
  assert (Z.land (Z.shiftl v4 5) 0xfe0 = bfield v4 0 7 * 32) as -> by bytesweep v4 H4.
  assert (Z.land (Z.shiftl v5 5) 0xfe0 = bfield v5 0 7 * 32) as -> by bytesweep v5 H5.
  assert (Z.land (Z.shiftl v1 2) 0x100 = bfield v1 6 1 * 2 ^ 8) as -> by bytesweep v1 H1.
  assert (Z.land v1 0x3f = bfield v1 0 6) as -> by bytesweep v1 H1.
  assert (Z.land v2 0x3f = bfield v2 0 6) as -> by bytesweep v2 H2.
  assert (Z.land v2 0x40 = bfield v2 6 1 * 2 ^ 6) as -> by bytesweep v2 H2.
  assert (Z.land (Z.shiftl v2 3) 0x200 = bfield v2 6 1 * 2 ^ 9) as -> by bytesweep v2 H2.
  assert (Z.land v3 0x3f = bfield v3 0 6) as -> by bytesweep v3 H3.
  assert (Z.land v3 0x40 = bfield v3 6 1 * 2 ^ 6) as -> by bytesweep v3 H3.
  assert (Z.land (Z.shiftl v3 4) 0x400 = bfield v3 6 1 * 2 ^ 10) as -> by bytesweep v3 H3.
  assert (Z.land (Z.shiftl v4 1) 0x80 = bfield v4 6 1 * 2 ^ 7) as -> by bytesweep v4 H4.
  assert (Z.land (Z.shiftl v4 3) 0x200 = bfield v4 6 1 * 2 ^ 9) as -> by bytesweep v4 H4.
  assert (Z.land (Z.shiftl v4 4) 0x200 = bfield v4 5 1 * 2 ^ 9) as -> by bytesweep v4 H4.
  assert (Z.land (Z.shiftl v4 5) 0x800 = bfield v4 6 1 * 2 ^ 11) as -> by bytesweep v4 H4.
  assert (Z.land (Z.shiftl v5 1) 0x80 = bfield v5 6 1 * 2 ^ 7) as -> by bytesweep v5 H5.
  assert (Z.land (Z.shiftl v5 5) 0x400 = bfield v5 5 1 * 2 ^ 10) as -> by bytesweep v5 H5.
  assert (Z.land v5 0x40 = bfield v5 6 1 * 2 ^ 6) as -> by bytesweep v5 H5.
  unfold hdr11. cbv zeta. destruct (Z.eqb_spec (hdr11_majcomp v4 v5) 3) as [E3|E3].
  { rewrite !shl_mul by lia. change (2 ^ 4) with 16. reflexivity. }
  assert (0 <= hdr11_majcomp v4 v5 < 3) as Hm by lia. clear Hmaj E3.
  generalize dependent (hdr11_majcomp v4 v5). intros maj Hmaj.
  pose proof (extend16_range (hdr11_dbits (hdr11_mode v1 v2 v3)) v4) as D0.
  pose proof (extend16_range (hdr11_dbits (hdr11_mode v1 v2 v3)) v5) as D1. revert D0 D1.
  generalize (extend16 (hdr11_dbits (hdr11_mode v1 v2 v3)) v4) (extend16 (hdr11_dbits (hdr11_mode v1 v2 v3)) v5). intros d0 d1 D0 D1.
  generalize dependent (hdr11_mode v1 v2 v3). intros mode Hmode.
  pose proof (bfield_range v1 0 6 ltac:(lia)) as A1. pose proof (bfield_range v2 0 6 ltac:(lia)) as A2. pose proof (bfield_range v3 0 6 ltac:(lia)) as A3.
  pose proof (bfield_range v1 6 1 ltac:(lia)) as Y. pose proof (bfield_range v2 6 1 ltac:(lia)) as X0. pose proof (bfield_range v3 6 1 ltac:(lia)) as X1.
  pose proof (bfield_range v4 6 1 ltac:(lia)) as X2. pose proof (bfield_range v5 6 1 ltac:(lia)) as X3.
  pose proof (bfield_range v4 5 1 ltac:(lia)) as X4. pose proof (bfield_range v5 5 1 ltac:(lia)) as X5.
  generalize dependent (bfield v1 0 6). generalize dependent (bfield v2 0 6). generalize dependent (bfield v3 0 6).
  generalize dependent (bfield v1 6 1). generalize dependent (bfield v2 6 1). generalize dependent (bfield v3 6 1).
  generalize dependent (bfield v4 6 1). generalize dependent (bfield v5 6 1). generalize dependent (bfield v4 5 1). generalize dependent (bfield v5 5 1).
  clear v1 v2 v3 v4 v5 H1 H2 H3 H4 H5. intros x5 X5 x4 X4 x3 X3 x2 X2 x1 X1 x0 X0 y Y c3 A3 c2 A2 c1 A1.
  change (2 ^ 1) with 2 in *. change (2 ^ 6) with 64 in A1, A2, A3.
  enum mode Hmode; unfold onehot; cbn [existsb Z.eqb Pos.eqb orb negb];
    match goal with |- context [Z.lxor ?a ?b] => let v := eval vm_compute in (Z.lxor a b) in change (Z.lxor a b) with v end;
    match goal with |- context [3 - ?a / 2] => let v := eval vm_compute in (3 - a / 2) in change (3 - a / 2) with v end;
    ors; rewrite !ishl32 by lia; cbn [bind]; rewrite ?Z.mul_1_l; ias;
    (enum maj Hmaj; cbn [Z.eqb Pos.eqb row_of]; unfold set_endpoint_hdr_clamp; cbn [map];
     rewrite !clampz_clamp by lia; lists; (reflexivity || (f_equal; lia))).
Qed.

(** *** HDR alpha *)
Lemma alpha_sweep : all_below 3 (fun mode => all_below 128 (fun x =>
  (Z.land (Z.shiftl x (mode + 1)) 0x780 =? bfield x (6 - mode) (mode + 1) * 2 ^ 7) &&
  (Z.lxor (Z.land x (Z.shiftr 0x3f mode)) (Z.shiftr 0x20 mode) - Z.shiftr 0x20 mode =? sign_extend (6 - mode) x) &&
  (-32 <=? sign_extend (6 - mode) x) && (sign_extend (6 - mode) x <=? 31))) = true.
Proof. vm_cast_no_check (eq_refl true). Qed.

(** *** All modes *)
Lemma transfer_range_sweep : all_below 256 (fun x => (-32 <=? transfer_a x) && (transfer_a x <=? 31)) = true.
Proof. vm_cast_no_check (eq_refl true). Qed.
Lemma transfer_a_range x : 0 <= x < 256 -> -32 <= transfer_a x <= 31.
Proof. intros H. pose proof (all_below_spec _ _ transfer_range_sweep x H) as A. cbv beta in A. apply andb_true_iff in A. lia. Qed.
Lemma transfer_b_range x y : 0 <= x < 256 -> 0 <= y < 256 -> 0 <= transfer_b x y < 256.
Proof. intros Hx Hy. unfold transfer_b. pose proof (bfield_range x 7 1 ltac:(lia)). change (2 ^ 1) with 2 in *. dlia. Qed.
Ltac tr v w := pose proof (transfer_a_range w ltac:(assumption)); pose proof (transfer_b_range w v ltac:(assumption) ltac:(assumption)).
Lemma prod_range x y : 0 <= x < 256 -> 0 <= y < 256 -> 0 <= x * y < 65536.
Proof. nia. Qed.
Ltac pr v w := pose proof (prod_range v w ltac:(assumption) ltac:(assumption)).
Lemma shr8 x : Z.shiftr x 8 = x / 256.
Proof. rewrite shr_div by lia. reflexivity. Qed.
Lemma shr1 x : Z.shiftr x 1 = x / 2.
Proof. rewrite shr_div by lia. reflexivity. Qed.

Lemma decode_cem_ok m cem v : 0 <= cem < 16 -> bytes v -> cem_values cem <= zlen v ->
  decode_cem m cem v = Ok (row_of (end_points_with extend16 cem (znth v))).
Proof.
  intros Hc Hv Hl.
  enum cem Hc; match type of Hl with cem_values ?c <= _ => let k := eval vm_compute in (cem_values c) in change (cem_values c) with k in Hl end;
  (destruct v as [|v0 v]; [exfalso; cbn in Hl; lia|]; destruct v as [|v1 v]; [exfalso; cbn in Hl; lia|];
   apply Forall_cons_iff in Hv; destruct Hv as [H0 Hv]; apply Forall_cons_iff in Hv; destruct Hv as [H1 Hv]; unfold is_byte in H0, H1);
  try (destruct v as [|v2 v]; [exfalso; cbn in Hl; lia|]; destruct v as [|v3 v]; [exfalso; cbn in Hl; lia|];
   apply Forall_cons_iff in Hv; destruct Hv as [H2 Hv]; apply Forall_cons_iff in Hv; destruct Hv as [H3 Hv]; unfold is_byte in H2, H3);
  try (destruct v as [|v4 v]; [exfalso; cbn in Hl; lia|]; destruct v as [|v5 v]; [exfalso; cbn in Hl; lia|];
   apply Forall_cons_iff in Hv; destruct Hv as [H4 Hv]; apply Forall_cons_iff in Hv; destruct Hv as [H5 Hv]; unfold is_byte in H4, H5);
  try (destruct v as [|v6 v]; [exfalso; cbn in Hl; lia|]; destruct v as [|v7 v]; [exfalso; cbn in Hl; lia|];
   apply Forall_cons_iff in Hv; destruct Hv as [H6 Hv]; apply Forall_cons_iff in Hv; destruct Hv as [H7 Hv]; unfold is_byte in H6, H7);
  clear Hv Hl; unfold decode_cem, end_points_with; cbv beta iota zeta; zn.
  - ix. reflexivity.
  - ix. assert (Z.land v1 0xc0 = bfield v1 6 2 * 2 ^ 6) as -> by bytesweep v1 H1.
    assert (Z.land v1 0x3f = bfield v1 0 6) as -> by bytesweep v1 H1. rewrite shr_div by lia. change (2 ^ 2) with 4.
    rewrite or_at by (try (clear - H0; dlia); lia). replace (v0 / 4 + bfield v1 6 2 * 2 ^ 6) with (v0 / 4 + 64 * bfield v1 6 2) by lia.
    pose proof (bfield_range v1 6 2 ltac:(lia)). pose proof (bfield_range v1 0 6 ltac:(lia)).
    assert (0 <= v0 / 4 <= 63) by (clear - H0; dlia). ias.
    assert (clampz 0 255 (v0 / 4 + 64 * bfield v1 6 2 + bfield v1 0 6) = Z.min 255 (v0 / 4 + 64 * bfield v1 6 2 + bfield v1 0 6)) as ->
      by (rewrite clampz_clamp by lia; unfold clamp; lia). reflexivity.
  - ix. rewrite !shl32_mul by lia. change (2 ^ 4) with 16. destruct (v0 <=? v1); ias; reflexivity.
  - ix. assert (bit_set v0 0x80 = (bfield v0 7 1 =? 1)) as ->.
    { clear - H0. pose proof (all_below_spec 256 (fun v0 => Bool.eqb (bit_set v0 0x80) (bfield v0 7 1 =? 1)) ltac:(vm_cast_no_check (eq_refl true)) v0 H0) as E.
      apply Bool.eqb_prop in E. exact E. }
    assert (Z.land v0 0x7f = bfield v0 0 7) as -> by bytesweep v0 H0.
    assert (shl32 (Z.land v1 0xe0) 4 = bfield v1 5 3 * 2 ^ 9) as -> by bytesweep v1 H1.
    assert (shl32 (Z.land v1 0xf0) 4 = bfield v1 4 4 * 2 ^ 8) as -> by bytesweep v1 H1.
    assert (shl32 (Z.land v1 0x1f) 2 = bfield v1 0 5 * 4) as -> by bytesweep v1 H1.
    assert (shl32 (Z.land v1 0xf) 1 = bfield v1 0 4 * 2) as -> by bytesweep v1 H1.
    pose proof (bfield_range v0 0 7 ltac:(lia)). pose proof (bfield_range v1 5 3 ltac:(lia)). pose proof (bfield_range v1 4 4 ltac:(lia)).
    pose proof (bfield_range v1 0 5 ltac:(lia)). pose proof (bfield_range v1 0 4 ltac:(lia)).
    rewrite !shl32_mul by lia. rewrite !lor_add by lia. change (2 ^ 2) with 4. change (2 ^ 1) with 2.
    destruct (bfield v0 7 1 =? 1); cbn [row_of]; ias; rewrite clampz_clamp by lia; unfold clamp; 
      unfold set_endpoint; rewrite Z.max_r by lia; reflexivity.
  - ix. reflexivity.
  - rewrite bt10 by auto. cbn [bind]. rewrite bt32 by auto. cbn [bind]. ix. tr v0 v1. tr v2 v3. ias.
    unfold set_endpoint_clamp. cbn [map clamp4 row_of]. rewrite !clampz_clamp by lia. lists; (reflexivity || (f_equal; lia)).
  - ix. pr v0 v3. pr v1 v3. pr v2 v3. ias. rewrite !shr8. reflexivity.
  - apply hdr7_ok; auto.
  - ix. ias. unfold set_endpoint_blue. ias. rewrite !shr1. destruct (v0 + v2 + v4 <=? v1 + v3 + v5); reflexivity.
  - rewrite bt10 by auto. cbn [bind]. rewrite bt32 by auto. cbn [bind]. rewrite bt54 by auto. cbn [bind]. ix. tr v0 v1. tr v2 v3. tr v4 v5. ias.
    unfold set_endpoint_clamp, set_endpoint_blue_clamp. ias. rewrite !shr1.
    destruct (0 <=? transfer_a v1 + transfer_a v3 + transfer_a v5); cbn [map clamp4 row_of blue_contract]; rewrite !clampz_clamp by lia; reflexivity.
  - ix. pr v0 v3. pr v1 v3. pr v2 v3. ias. rewrite !shr8. reflexivity.
  - apply hdr11_ok; auto.
  - ix. ias. unfold set_endpoint_blue. ias. rewrite !shr1. destruct (v0 + v2 + v4 <=? v1 + v3 + v5); reflexivity.
  - rewrite bt10 by auto. cbn [bind]. rewrite bt32 by auto. cbn [bind]. rewrite bt54 by auto. cbn [bind]. rewrite bt76 by auto. cbn [bind]. ix. tr v0 v1. tr v2 v3. tr v4 v5. tr v6 v7. ias.
    unfold set_endpoint_clamp, set_endpoint_blue_clamp. ias. rewrite !shr1.
    destruct (0 <=? transfer_a v1 + transfer_a v3 + transfer_a v5); cbn [map clamp4 row_of blue_contract]; rewrite !clampz_clamp by lia; reflexivity.
  - ix. apply hdr11_ok; auto.
  - ix. unfold hdr_alpha. cbv zeta.
    assert (Z.lor (Z.land (Z.shiftr v6 7) 1) (Z.land (Z.shiftr v7 6) 2) = bfield v6 7 1 + 2 * bfield v7 7 1) as ->.
    { assert (Z.land (Z.shiftr v6 7) 1 = bfield v6 7 1) as -> by bytesweep v6 H6.
      assert (Z.land (Z.shiftr v7 6) 2 = bfield v7 7 1 * 2 ^ 1) as -> by bytesweep v7 H7.
      rewrite or_at by (try apply bfield_range; lia). lia. }
    assert (Z.land v6 0x7f = bfield v6 0 7) as -> by bytesweep v6 H6.
    assert (Z.land v7 0x7f = bfield v7 0 7) as -> by bytesweep v7 H7.
    pose proof (bfield_range v6 7 1 ltac:(lia)) as B6. pose proof (bfield_range v7 7 1 ltac:(lia)) as B7.
    change (2 ^ 1) with 2 in B6, B7. assert (0 <= bfield v6 7 1 + 2 * bfield v7 7 1 < 4) as HM by lia. clear B6 B7.
    generalize dependent (bfield v6 7 1 + 2 * bfield v7 7 1). intros mode HM.
    pose proof (bfield_range v6 0 7 ltac:(lia)) as L6. pose proof (bfield_range v7 0 7 ltac:(lia)) as L7. change (2 ^ 7) with 128 in L6, L7.
    destruct (Z.eqb_spec mode 3) as [E3|E3].
    { rewrite !shl32_mul by lia. change (2 ^ 5) with 32. apply hdr11_ok; auto. }
    assert (0 <= mode < 3) as Hm by lia.
    pose proof (all_below_spec _ _ (all_below_spec _ _ alpha_sweep mode Hm) (bfield v7 0 7) L7) as A. cbv beta in A.
    rewrite !andb_true_iff in A. destruct A as [[[A1 A2] A3] A4]. apply Z.eqb_eq in A1, A2. apply Z.leb_le in A3, A4.
    assert (1 <= 2 ^ (mode + 1) <= 8) as E1 by (clear - Hm; enum mode Hm; cbn; lia).
    assert (1 <= 2 ^ (4 - mode) <= 16) as E2 by (clear - Hm; enum mode Hm; cbn; lia).
    assert (0 <= bfield (bfield v7 0 7) (6 - mode) (mode + 1) < 8) as E4.
    { pose proof (bfield_range (bfield v7 0 7) (6 - mode) (mode + 1) ltac:(lia)). lia. }
    rewrite ia32 by lia. cbn [bind]. rewrite ishl32 by (try lia; clear - L7 E1; nia). cbn [bind].
    rewrite <- shl_mul by lia. rewrite A1.
    rewrite !ushr_ok by lia. cbn [bind]. rewrite <- !shr_div by lia. rewrite A2.
    rewrite ia32 by lia. cbn [bind]. rewrite ia32 by lia. cbn [bind].
    rewrite or_at by (change (2 ^ 7) with 128; lia). change (2 ^ 7) with 128.
    assert (0 <= (bfield v6 0 7 + bfield (bfield v7 0 7) (6 - mode) (mode + 1) * 128) * 2 ^ (4 - mode) <= 20000) by (clear - L6 E2 E4; nia).
    assert (-1000 <= sign_extend (6 - mode) (bfield v7 0 7) * 2 ^ (4 - mode) <= 1000) by (clear - A3 A4 E2; nia).
    rewrite !ishl32 by lia. cbn [bind]. ias. rewrite clampz_clamp by lia.
    apply hdr11_ok; auto.
Qed.

(** Only the values of the mode matter. *)
Lemma end_points_ext sx cem f g : 0 <= cem < 16 -> (forall k, 0 <= k < cem_values cem -> f k = g k) ->
  end_points_with sx cem f = end_points_with sx cem g.
Proof.
  intros Hc H.
  enum cem Hc; match type of H with forall k, 0 <= k < cem_values ?c -> _ => let k := eval vm_compute in (cem_values c) in change (cem_values c) with k in H end;
  unfold end_points_with; cbv beta iota zeta;
  pose proof (H 0 ltac:(lia)) as E0; pose proof (H 1 ltac:(lia)) as E1; rewrite ?E0, ?E1; clear E0 E1;
  try (pose proof (H 2 ltac:(lia)) as E2; pose proof (H 3 ltac:(lia)) as E3; rewrite ?E2, ?E3; clear E2 E3);
  try (pose proof (H 4 ltac:(lia)) as E4; pose proof (H 5 ltac:(lia)) as E5; rewrite ?E4, ?E5; clear E4 E5);
  try (pose proof (H 6 ltac:(lia)) as E6; pose proof (H 7 ltac:(lia)) as E7; rewrite ?E6, ?E7; clear E6 E7); reflexivity.
Qed.

Definition part_ends (sx : Z -> Z -> Z) (W : Z) (l : layout) (p : Z) : quad * quad :=
  end_points_with sx (znth (l_cems l) p) (fun k => colors_of W l (cem_start l p + k)).

Lemma zsum_app a b : zsum (a ++ b) = zsum a + zsum b.
Proof. unfold zsum. induction a; cbn [app fold_right]; lia. Qed.

Lemma cem_start_succ l p : 0 <= p < zlen (l_cems l) -> cem_start l (p + 1) = cem_start l p + cem_values (znth (l_cems l) p).
Proof.
  intros H. unfold cem_start. replace (Z.to_nat (p + 1)) with (S (Z.to_nat p)) by lia.
  rewrite (firstn_snoc_nth (l_cems l) (Z.to_nat p) 0) by (unfold zlen in *; lia).
  rewrite map_app, zsum_app. cbn [map zsum fold_right]. unfold znth. lia.
Qed.

Lemma colors_range W l i : In (l_cq l) code_quants -> 0 <= colors_of W l i < 256.
Proof.
  intros I. unfold colors_of. destruct (l_cq l) as [k n].
  pose proof (code_quants_ok _ _ I) as Q. assert (0 <= n) by (destruct k; cbn [quant_ok] in Q; lia).
  destruct (entry_range k n (bfield W (l_cstart l) (seq_size k n (l_cvalues l))) i ltac:(auto)).
  apply (unquant_code_ok Checked); auto.
Qed.

Lemma skipn_twice {A} a b (l : list A) : skipn a (skipn b l) = skipn (b + a) l.
Proof.
  revert l; induction b; intros l; [reflexivity|]. destruct l; cbn [skipn Nat.add]; auto. apply skipn_nil.
Qed.

(** ** The end points of a block *)
(** What is needed of the layout. *)
Record cem_layout (l : layout) : Prop := {
  cl_parts4 : 1 <= l_parts l <= 4;
  cl_cems : zlen (l_cems l) = l_parts l;
  cl_cem : forall c, In c (l_cems l) -> 0 <= c < 16;
  cl_cvalues : l_cvalues l = zsum (map cem_values (l_cems l));
  cl_cq : In (l_cq l) code_quants;
  cl_cstart : l_cstart l = if l_parts l =? 1 then 17 else 29
}.
Lemma layout_cem W l : layout_ok W l -> cem_layout l.
Proof. intros LO. destruct LO. constructor; auto. apply in_code. auto. Qed.

Lemma endpoints_from m buf V l d sq :
  cem_layout l ->
  bp_part_num d = l_parts l -> bp_cem d = l_cems l ++ repeat 0 (4 - Z.to_nat (l_parts l)) ->
  bp_endpoint_value_num d = l_cvalues l -> 0 <= bp_cem_range d < 19 ->
  znth CEM_TABLE_A (bp_cem_range d) = radix_code (fst (l_cq l)) -> znth CEM_TABLE_B (bp_cem_range d) = snd (l_cq l) ->
  decode_intseq m buf (l_cstart l) (radix_code (fst (l_cq l))) (snd (l_cq l)) (l_cvalues l) false (repeat (0, 0) 32) = Ok sq ->
  filled (0, 0) (repeat (0, 0) 32) sq (l_cvalues l)
    (seq_entry (fst (l_cq l)) (snd (l_cq l)) (bfield V (l_cstart l) (seq_size (fst (l_cq l)) (snd (l_cq l)) (l_cvalues l)))) ->
  exists eps, decode_endpoints m buf d = Ok eps /\ zlen eps = 4 /\
    forall p, 0 <= p < l_parts l -> nth (Z.to_nat p) eps [] = row_of (part_ends extend16 V l p).
Proof.
  intros LO Hparts Hcem Hcount Hr HA HB ES [F1 F2].
  pose proof (zsum_values _ (cl_cem _ LO)) as CV. rewrite <- (cl_cvalues _ LO) in CV. rewrite (cl_cems _ LO) in CV.
  pose proof (cl_parts4 _ LO) as P4.
  unfold decode_endpoints. rewrite Hparts, Hcem, Hcount.
  rewrite !idx_ok by (split; [lia|]; apply Z.lt_le_trans with 19; [lia|vm_compute; discriminate]). cbn [bind]. rewrite HA, HB.
  pose proof (cl_cq _ LO) as IQ. pose proof (cl_cstart _ LO) as Hstart.
  destruct (l_cq l) as [k n] eqn:EQ. cbn [fst snd] in *. rewrite <- Hstart.
  pose proof (code_quants_ok _ _ IQ) as QO. assert (0 <= n) by (destruct k; cbn [quant_ok] in QO; lia).
  rewrite ES. cbn [bind]. change (zlen (repeat (0, 0) 32)) with 32 in F1. rename V into W.
  assert (forall i, 0 <= i < l_cvalues l -> nth (Z.to_nat i) sq (0, 0) = seq_entry k n (bfield W (l_cstart l) (seq_size k n (l_cvalues l))) i) as F3.
  { intros i Hi. rewrite F2 by lia. destruct (Z.ltb_spec i (l_cvalues l)); [reflexivity|lia]. }
  destruct (for_range_inv (fun i ev => filled 0 (repeat 0 32) ev i (colors_of W l)) 0 (l_cvalues l)
    (fun i ev => let* s := idx sq i in let* e := unquant_endpoint m (radix_code k) n s in upd ev i e) (repeat 0 32)) as (ev & E & I).
  { lia. } { apply filled_0. }
  { intros i ev Hi F. rewrite (idx_ok_d (0, 0)) by lia. cbn [bind]. rewrite F3 by lia.
    destruct (entry_range k n (bfield W (l_cstart l) (seq_size k n (l_cvalues l))) i ltac:(auto)) as [R1 R2].
    destruct (unquant_code_ok m k n _ IQ R1 R2) as [-> _]. cbn [bind].
    rewrite upd_ok by (destruct F as [-> _]; change (zlen (repeat 0 32)) with 32; lia).
    eexists; split; [reflexivity|].
    assert (color_value k n (seq_entry k n (bfield W (l_cstart l) (seq_size k n (l_cvalues l))) i) = colors_of W l i) as ->
      by (unfold colors_of; rewrite EQ; reflexivity).
    apply filled_step; auto. change (zlen (repeat 0 32)) with 32; lia. }
  rewrite E. cbn [bind]. destruct I as [I1 I2]. change (zlen (repeat 0 32)) with 32 in I1.
  assert (forall i, 0 <= i < l_cvalues l -> znth ev i = colors_of W l i) as EV.
  { intros i Hi. unfold znth. rewrite I2 by lia. destruct (Z.ltb_spec i (l_cvalues l)); [reflexivity|lia]. }
  assert (bytes ev) as BE.
  { apply Forall_forall. intros x Hx. apply (In_nth _ _ 0) in Hx. destruct Hx as (j & Hj & <-).
    specialize (I2 (Z.of_nat j) ltac:(lia)). rewrite Nat2Z.id in I2. rewrite I2.
    destruct (Z.of_nat j <? l_cvalues l); [apply colors_range; rewrite EQ; auto|].
    assert (nth j (repeat 0 32) 0 = 0) as ->; [|unfold is_byte; lia].
    destruct (Nat.lt_ge_cases j 32); [apply nth_repeat|apply nth_overflow; rewrite repeat_length; auto]. }
  clear E ES sq F1 F2 F3 I2.
  destruct (for_range_inv (fun p '(eps, v) => v = skipn (Z.to_nat (cem_start l p)) ev /\ 0 <= cem_start l p /\
      cem_start l p + zsum (map cem_values (skipn (Z.to_nat p) (l_cems l))) = l_cvalues l /\
      zlen eps = 4 /\ forall q, 0 <= q < p -> nth (Z.to_nat q) eps [] = row_of (part_ends extend16 W l q)) 0 (l_parts l)
    (fun p '(eps, v) =>
      let* c := idx (l_cems l ++ repeat 0 (4 - Z.to_nat (l_parts l))) p in
      let* row := decode_cem m c v in
      let* eps := upd eps p row in
      let* v := slice_from v ((c / 4 + 1) * 2) in
      Ok (eps, v)) (repeat (repeat 0 8) 4, ev)) as (st & E & I).
  { lia. }
  { split; [reflexivity|]. split; [cbn; lia|]. split; [cbn [Z.to_nat skipn]; rewrite <- (cl_cvalues _ LO); reflexivity|]. split; [reflexivity|]. lia. }
  { intros p [eps v] Hp (-> & S0 & S1 & Le & Q).
    assert (zlen (l_cems l) = l_parts l) as LC by apply (cl_cems _ LO).
    rewrite idx_ok by (rewrite zlen_app, LC; pose proof (zlen_nonneg (repeat 0 (4 - Z.to_nat (l_parts l)))); lia). cbn [bind].
    assert (znth (l_cems l ++ repeat 0 (4 - Z.to_nat (l_parts l))) p = znth (l_cems l) p) as -> by (unfold znth, zlen in *; rewrite app_nth1 by lia; auto).
    assert (In (znth (l_cems l) p) (l_cems l)) as Ic by (unfold znth, zlen in *; apply nth_In; lia).
    pose proof (cl_cem _ LO _ Ic) as Rc.
    assert (skipn (Z.to_nat p) (l_cems l) = znth (l_cems l) p :: skipn (Z.to_nat (p + 1)) (l_cems l)) as SK.
    { unfold znth. replace (Z.to_nat (p + 1)) with (S (Z.to_nat p)) by lia. unfold zlen in LC.
      assert (Z.to_nat p < length (l_cems l))%nat as Hlt by lia. revert Hlt. generalize (Z.to_nat p) (l_cems l). clear.
      intros n; induction n; intros [|a l] H; cbn [length skipn nth] in *; try lia; auto. rewrite IHn by lia. reflexivity. }
    rewrite SK in S1. cbn [map zsum fold_right] in S1. fold (zsum (map cem_values (skipn (Z.to_nat (p + 1)) (l_cems l)))) in S1.
    assert (0 <= zsum (map cem_values (skipn (Z.to_nat (p + 1)) (l_cems l)))) as S2.
    { apply zsum_values. intros c Hc. apply (cl_cem _ LO). rewrite <- (firstn_skipn (Z.to_nat (p + 1)) (l_cems l)). apply in_or_app; auto. }
    assert (2 <= cem_values (znth (l_cems l) p) <= 8) as CB.
    { unfold cem_values. assert (0 <= znth (l_cems l) p / 4 < 4) by (split; [apply Z.div_pos; lia|apply Z.div_lt_upper_bound; lia]). lia. }
    assert (zlen (skipn (Z.to_nat (cem_start l p)) ev) = 32 - cem_start l p) as LS by (rewrite zlen_skipn, I1; lia).
    rewrite decode_cem_ok; [|auto|apply bytes_skipn; auto|lia]. cbn [bind].
    rewrite upd_ok by lia. cbn [bind]. unfold slice_from.
    replace ((znth (l_cems l) p / 4 + 1) * 2) with (cem_values (znth (l_cems l) p)) by (unfold cem_values; lia).
    destruct (Z.leb_spec 0 (cem_values (znth (l_cems l) p))); [|lia].
    destruct (Z.leb_spec (cem_values (znth (l_cems l) p)) (zlen (skipn (Z.to_nat (cem_start l p)) ev))); [|lia].
    cbn [andb bind]. eexists; split; [reflexivity|].
    rewrite cem_start_succ by lia. split; [|split; [lia|split; [lia|split; [rewrite zlen_replace_nth; auto|]]]].
    - rewrite skipn_twice. f_equal. lia.
    - intros q Hq. rewrite nth_replace_nth by (unfold zlen in *; lia).
      destruct (Nat.eqb_spec (Z.to_nat q) (Z.to_nat p)) as [Eq|Nq].
      + assert (q = p) by lia. subst q. f_equal. unfold part_ends. apply end_points_ext; auto.
        intros k' Hk'. rewrite znth_skipn by lia. rewrite Z2Nat.id by lia. apply EV. lia.
      + apply Q. lia. }
  rewrite E. destruct st as [eps v]. destruct I as (_ & _ & _ & L4 & Q). cbn [bind]. exists eps. auto.
Qed.

(** ** The end points of a legal block *)
Lemma decode_endpoints_ok m buf l d : bytes buf -> 16 <= zlen buf ->
  let W := astc_word buf in
  layout_ok W l ->
  bp_part_num d = l_parts l -> bp_cem d = l_cems l ++ repeat 0 (4 - Z.to_nat (l_parts l)) ->
  bp_endpoint_value_num d = l_cvalues l -> 0 <= bp_cem_range d < 17 ->
  znth CEM_TABLE_A (bp_cem_range d) = radix_code (fst (l_cq l)) -> znth CEM_TABLE_B (bp_cem_range d) = snd (l_cq l) ->
  exists eps, decode_endpoints m buf d = Ok eps /\ zlen eps = 4 /\
    forall p, 0 <= p < l_parts l -> nth (Z.to_nat p) eps [] = row_of (part_ends extend16 W l p).
Proof.
  intros Hb Hl W LO Hparts Hcem Hcount Hr HA HB. pose proof (layout_cem _ _ LO) as CL.
  pose proof (zsum_values _ (lo_cem _ _ LO)) as CV. rewrite <- (lo_cvalues _ _ LO) in CV. rewrite (lo_cems _ _ LO) in CV.
  pose proof (lo_parts4 _ _ LO) as P4. pose proof (lo_fits _ _ LO) as Hfit. pose proof (lo_cstart _ _ LO) as Hstart.
  pose proof (lo_cq _ _ LO) as IQ.
  assert (quant_ok (fst (l_cq l)) (snd (l_cq l))) as QO by (apply quants_ok; destruct (l_cq l); exact IQ).
  destruct (intseq_ok m (fst (l_cq l)) buf (l_cstart l) (radix_code (fst (l_cq l))) (snd (l_cq l)) (l_cvalues l) false (repeat (0, 0) 32)) as (sq & ES & F); auto.
  { destruct (fst (l_cq l)); cbn [radix_code]; auto; lia. }
  { change (zlen (repeat (0, 0) 32)) with 32. lia. }
  { cbn [seq_fits]. rewrite Hstart in *. destruct (l_parts l =? 1); lia. }
  apply (endpoints_from m buf W l d sq); auto. lia.
Qed.
