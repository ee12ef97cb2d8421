(** * ASTC block parameters *)
From Verif Require Import Base BaseLemmas BitLemmas FieldLemmas ModelBits ProofDecoder ProofBits ProofPvrInfo ModelAstc SpecAstc ProofAstcSeq.

Ltac dlia := Z.to_euclidean_division_equations; lia.

Lemma land_field x p n : 0 <= p -> 0 <= n -> Z.land (Z.shiftr x p) (2 ^ n - 1) = bfield x p n.
Proof. intros. rewrite land_mask, shr_div by lia. reflexivity. Qed.

Lemma bfield_sub x p n q r : 0 <= p -> 0 <= q -> 0 <= r -> q + r <= n ->
  bfield (bfield x p n) q r = bfield x (p + q) r.
Proof. intros. rewrite bfield_bfield by lia. rewrite Z.min_l by lia. reflexivity. Qed.

Lemma bfield_mod x N p n : 0 <= p -> 0 <= n -> p + n <= N -> bfield (x mod 2 ^ N) p n = bfield x p n.
Proof.
  intros. transitivity (bfield (bfield x 0 N) p n).
  - unfold bfield at 3. rewrite Z.pow_0_r, Z.div_1_r. reflexivity.
  - rewrite bfield_sub by lia. reflexivity.
Qed.

Lemma bfield_join x p a b : 0 <= p -> 0 <= a -> 0 <= b -> bfield x p (a + b) = bfield x p a + 2 ^ a * bfield x (p + a) b.
Proof.
  intros. unfold bfield. rewrite Z.pow_add_r by lia. rewrite Z.rem_mul_r by pw. rewrite div_pow_split by lia. reflexivity.
Qed.

Section Word.
Context (buf : list Z) (Hb : bytes buf) (Hl : 16 <= zlen buf).
Let W := astc_word buf.

Lemma word_byte k j n : 0 <= k < 16 -> 0 <= j -> 0 <= n -> j + n <= 8 ->
  bfield W (8 * k + j) n = bfield (znth buf k) j n.
Proof.
  intros Hk Hj Hn H. unfold W. rewrite <- word_bits by (auto; lia).
  exact (le_field buf k j n Hb ltac:(lia) Hj Hn H).
Qed.

Lemma znth_byte k : 0 <= k < 16 -> 0 <= znth buf k < 256.
Proof. intros. apply bytes_znth; auto; lia. Qed.

Lemma byte_word k : 0 <= k < 16 -> znth buf k = bfield W (8 * k) 8.
Proof.
  intros Hk. pose proof (word_byte k 0 8 Hk ltac:(lia) ltac:(lia) ltac:(lia)) as E.
  rewrite Z.add_0_r in E. rewrite E. unfold bfield. rewrite Z.pow_0_r, Z.div_1_r. symmetry.
  apply Z.mod_small. exact (znth_byte k Hk).
Qed.

Lemma u16_word k : 0 <= k < 15 -> exists s, slice_from buf k = Ok s /\ u8ptr_to_u16 s = Ok (bfield W (8 * k) 16).
Proof.
  intros Hk. unfold slice_from. destruct (Z.leb_spec 0 k); [|lia]. destruct (Z.leb_spec k (zlen buf)); [|lia].
  eexists; split; [reflexivity|]. unfold u8ptr_to_u16.
  rewrite !idx_ok by (rewrite zlen_skipn; lia). cbn [bind le_bytes].
  rewrite !znth_skipn by lia. rewrite !byte_word by lia. f_equal.
  change 16 with (8 + 8). rewrite bfield_join by lia. change (2 ^ 8) with 256.
  replace (8 * (Z.of_nat (Z.to_nat k) + 0)) with (8 * k) by lia. replace (8 * (Z.of_nat (Z.to_nat k) + 1)) with (8 * k + 8) by lia. lia.
Qed.

End Word.

(** ** Weight grid *)
Lemma block_mode_ext x y : (forall i, 0 <= i < 11 -> bfield x i 1 = bfield y i 1) -> block_mode x = block_mode y.
Proof.
  intros H. unfold block_mode. set (bx := fun i => bfield x i 1). set (by_ := fun i => bfield y i 1).
  assert (forall md, In md block_modes -> mode_grid md bx = mode_grid md by_) as E.
  { intros md I. unfold mode_grid. destruct md as [p f].
    assert (String.length p = 11%nat) as Lp by (cbn in I; repeat (destruct I as [I|I]; [injection I as <- _; reflexivity|]); contradiction).
    assert (forall q, (String.length q <= 11)%nat -> pattern_matches q bx = pattern_matches q by_ /\
      forall l acc, marked l acc q bx = marked l acc q by_) as G.
    { induction q as [|c q IH]; [split; auto|]. cbn [String.length]. intros Lq.
      destruct IH as [I1 I2]; [lia|]. cbn [pattern_matches marked].
      assert (bx (Z.of_nat (String.length q)) = by_ (Z.of_nat (String.length q))) as -> by (apply H; lia).
      rewrite I1. split; auto. }
    destruct (G p ltac:(lia)) as [G1 G2]. rewrite G1, !G2. reflexivity. }
  generalize block_modes E. induction l as [|md l IH]; intros El; [reflexivity|].
  cbn [fold_right]. rewrite (El md) by (left; auto). rewrite IH; auto. intros; apply El; right; auto.
Qed.

(** Reserved block modes (the first test is also true for void-extent blocks). *)
Definition reserved (b0 b1 : Z) : bool :=
  ((Z.land b0 0xc3 =? 0xc0) && (Z.land b1 1 =? 1)) || (Z.land b0 0xf =? 0).

Definition grid_check (x : Z) : bool :=
  match block_mode x with
  | None => reserved (x mod 256) (x / 256)
  | Some g =>
      negb (reserved (x mod 256) (x / 256)) &&
      match block_grid [x mod 256; x / 256] with
      | Ok (d, r, w, h) => Bool.eqb d (g_dual g) && (r =? g_range g) && (w =? g_width g) && (h =? g_height g)
      | _ => false
      end && (2 <=? g_width g) && (g_width g <=? 12) && (2 <=? g_height g) && (g_height g <=? 12)
      && (g_width g * g_height g <=? 120) &&
      match weight_quant (g_range g) with
      | None => false
      | Some (k, n) => (znth WEIGHT_PREC_TABLE_A (g_range g) =? radix_code k) && (znth WEIGHT_PREC_TABLE_B (g_range g) =? n)
          && (2 <=? g_range g) && (g_range g <=? 15)
      end
  end.
Lemma grid_sweep : all_below 2048 grid_check = true.
Proof. vm_cast_no_check (eq_refl true). Qed.

Lemma w16_eq b0 b1 : le_bytes [b0; b1] = b0 + 256 * b1.
Proof. cbn [le_bytes]. lia. Qed.

Lemma block_grid_low b0 b1 rest : is_byte b0 -> is_byte b1 ->
  block_grid (b0 :: b1 :: rest) = block_grid [b0; b1 mod 8] /\ reserved b0 b1 = reserved b0 (b1 mod 8).
Proof.
  intros H0 H1. unfold is_byte in *.
  assert (bit_set b1 4 = bit_set (b1 mod 8) 4) as E1 by (unfold bit_set; f_equal; f_equal; bytesweep b1 H1).
  assert (bit_set b1 1 = bit_set (b1 mod 8) 1) as E2 by (unfold bit_set; f_equal; f_equal; bytesweep b1 H1).
  assert (Z.land (u8 (Z.shiftl b1 2)) 8 = Z.land (u8 (Z.shiftl (b1 mod 8) 2)) 8) as E3 by bytesweep b1 H1.
  assert (Z.land (Z.shiftr b1 1) 3 = Z.land (Z.shiftr (b1 mod 8) 1) 3) as E4 by bytesweep b1 H1.
  assert (Z.land b1 1 = Z.land (b1 mod 8) 1) as E5 by bytesweep b1 H1.
  assert (le_bytes [b0; b1] / 2 ^ 7 mod 2 ^ 2 = le_bytes [b0; b1 mod 8] / 2 ^ 7 mod 2 ^ 2) as E6.
  { rewrite !w16_eq. change (2 ^ 7) with 128. change (2 ^ 2) with 4. clear E1 E2 E3 E4 E5. dlia. }
  split; [|unfold reserved; rewrite E5; reflexivity].
  unfold block_grid, u8ptr_to_u16.
  change (idx (b0 :: b1 :: rest) 1) with (Ok b1). change (idx (b0 :: b1 :: rest) 0) with (Ok b0).
  change (idx [b0; b1 mod 8] 1) with (Ok (b1 mod 8)). change (idx [b0; b1 mod 8] 0) with (Ok b0). cbn [bind]. cbv zeta.
  rewrite E1, E2, E3, E4. change 3 with (2 ^ 2 - 1). change 0x180 with (2 ^ 7 * (2 ^ 2 - 1)).
  rewrite (land_shifted (le_bytes [b0; b1])), (land_shifted (le_bytes [b0; b1 mod 8])) by lia.
  rewrite (land_field (le_bytes [b0; b1])), (land_field (le_bytes [b0; b1 mod 8])) by lia.
  unfold bfield. rewrite E6. reflexivity.
Qed.

Lemma block_grid_ok buf : bytes buf -> 16 <= zlen buf ->
  let W := astc_word buf in
  match block_mode W with
  | None => reserved (znth buf 0) (znth buf 1) = true
  | Some g => reserved (znth buf 0) (znth buf 1) = false /\
      block_grid buf = Ok (g_dual g, g_range g, g_width g, g_height g) /\
      2 <= g_width g <= 12 /\ 2 <= g_height g <= 12 /\ g_width g * g_height g <= 120 /\
      2 <= g_range g <= 15 /\
      exists k n, weight_quant (g_range g) = Some (k, n) /\
        znth WEIGHT_PREC_TABLE_A (g_range g) = radix_code k /\ znth WEIGHT_PREC_TABLE_B (g_range g) = n
  end.
Proof.
  intros Hb Hl W.
  assert (exists b0 b1 rest, buf = b0 :: b1 :: rest) as (b0 & b1 & rest & E).
  { destruct buf as [|b0 [|b1 rest]]; [cbn in Hl; lia|cbn in Hl; lia|eauto]. }
  assert (is_byte b0 /\ is_byte b1) as [H0 H1] by (subst buf; inv Hb; inv H2; auto).
  destruct (block_grid_low b0 b1 rest H0 H1) as [G R]. rewrite <- E in G.
  set (x := b0 + 256 * (b1 mod 8)).
  assert (0 <= x < 2048) as Hx by (unfold x, is_byte in *; clear - H0 H1; dlia).
  assert (x mod 256 = b0 /\ x / 256 = b1 mod 8) as [X0 X1] by (unfold x, is_byte in *; clear - H0 H1; split; dlia).
  assert (W mod 2 ^ 11 = x) as EW.
  { transitivity (bfield W 0 11); [unfold bfield; rewrite Z.pow_0_r, Z.div_1_r; auto|].
    change 11 with (8 + 3). rewrite bfield_join by lia.
    pose proof (word_byte buf Hb 0 0 8 ltac:(lia) ltac:(lia) ltac:(lia) ltac:(lia)) as F0.
    pose proof (word_byte buf Hb 1 0 3 ltac:(lia) ltac:(lia) ltac:(lia) ltac:(lia)) as F1.
    change (8 * 0 + 0) with 0 in F0. change (8 * 1 + 0) with 8 in F1. fold W in F0, F1.
    rewrite F0. change (0 + 8) with 8. rewrite F1. rewrite E. unfold bfield.
    change (znth (b0 :: b1 :: rest) 0) with b0. change (znth (b0 :: b1 :: rest) 1) with b1.
    rewrite !Z.pow_0_r, !Z.div_1_r. change (2 ^ 8) with 256. change (2 ^ 3) with 8. unfold is_byte in *.
    rewrite (Z.mod_small b0) by lia. reflexivity. }
  assert (block_mode W = block_mode x) as ->.
  { apply block_mode_ext. intros i Hi. rewrite <- EW. symmetry. apply bfield_mod; lia. }
  replace (znth buf 0) with b0 by (rewrite E; reflexivity). replace (znth buf 1) with b1 by (rewrite E; reflexivity).
  pose proof (all_below_spec _ _ grid_sweep x Hx) as S. unfold grid_check in S. rewrite X0, X1, <- R, <- G in S.
  destruct (block_mode x) as [g|]; [|exact S].
  rewrite !Bool.andb_true_iff in S. destruct S as [[[[[[[S1 S2] S3] S4] S5] S6] S7] S8].
  apply Bool.negb_true_iff in S1. apply Z.leb_le in S3, S4, S5, S6, S7.
  destruct (block_grid buf) as [[[[d r] w] h]| |]; try discriminate.
  rewrite !Bool.andb_true_iff in S2. destruct S2 as [[[D1 D2] D3] D4].
  apply Bool.eqb_prop in D1. apply Z.eqb_eq in D2, D3, D4. subst d r w h.
  destruct (weight_quant (g_range g)) as [[k n]|]; [|discriminate].
  rewrite !Bool.andb_true_iff in S8. destruct S8 as [[[T1 T2] T3] T4]. apply Z.eqb_eq in T1, T2. apply Z.leb_le in T3, T4.
  repeat split; auto. exists k, n. auto.
Qed.

Lemma weight_bits_ok k n count : 0 <= count ->
  weight_bits_of (radix_code k) n count = seq_size k n count.
Proof.
  intros. unfold weight_bits_of. destruct k; cbn [radix_code seq_size].
  - change (0 =? 3) with false. change (0 =? 5) with false. cbv iota. lia.
  - change (3 =? 3) with true. cbv iota. f_equal; [lia|]. f_equal; lia.
  - change (5 =? 3) with false. change (5 =? 5) with true. cbv iota. f_equal; [lia|]. f_equal; lia.
Qed.

Lemma seq_size_nonneg k n count : 0 <= n -> 0 <= count -> 0 <= seq_size k n count.
Proof.
  intros. assert (0 <= n * count) by (apply Z.mul_nonneg_nonneg; lia).
  destruct k; cbn [seq_size]; try lia; assert (0 <= (8 * count + 4) / 5) by (apply Z.div_pos; lia);
  assert (0 <= (7 * count + 2) / 3) by (apply Z.div_pos; lia); lia.
Qed.

(** ** Colour range *)
Lemma endpoint_bits_ok k n count : 0 <= count ->
  endpoint_bits_of (radix_code k) n count = seq_size k n count.
Proof.
  intros. unfold endpoint_bits_of. destruct k; cbn [radix_code seq_size].
  - change (0 =? 3) with false. change (0 =? 5) with false. cbv iota. lia.
  - change (3 =? 3) with true. cbv iota. rewrite div_ceil_eq by lia. f_equal; [lia|]. f_equal; lia.
  - change (5 =? 3) with false. change (5 =? 5) with true. cbv iota. rewrite div_ceil_eq by lia. f_equal; [lia|]. f_equal; lia.
Qed.

Lemma find_range count room qs : forall (pre ta tb : list Z), 0 <= count ->
  length pre = length ta -> length pre = length tb ->
  (forall kn, find (fun '(k, b) => seq_size k b count <=? room) qs = Some kn ->
   let i := find_cem_range (zlen pre) (map (fun kn => radix_code (fst kn)) qs ++ [0; 0]) (map snd qs ++ [2; 1]) count room in
   0 <= i < zlen ta + zlen qs /\
   znth (ta ++ map (fun kn => radix_code (fst kn)) qs ++ [0; 0]) i = radix_code (fst kn) /\
   znth (tb ++ map snd qs ++ [2; 1]) i = snd kn).
Proof.
  induction qs as [|[k b] qs IH]; intros pre ta tb Hc La Lb kn F; [discriminate|].
  cbn [find map app find_cem_range fst snd] in *. rewrite endpoint_bits_ok by auto.
  destruct (seq_size k b count <=? room).
  - injection F as <-. cbn [fst snd]. assert (zlen pre = zlen ta /\ zlen pre = zlen tb) as [A B] by (unfold zlen; lia).
    pose proof (zlen_nonneg pre). pose proof (zlen_nonneg qs). rewrite zlen_cons. cbv zeta. split; [lia|].
    unfold znth, zlen. rewrite Nat2Z.id.
    split; [rewrite La|rewrite Lb]; rewrite app_nth2, Nat.sub_diag by lia; reflexivity.
  - cbv zeta. replace (zlen pre + 1) with (zlen (pre ++ [0])) by (rewrite zlen_app; reflexivity).
    assert (length (pre ++ [0]) = length (ta ++ [radix_code k])) as L1 by (rewrite !app_length; cbn [length]; lia).
    assert (length (pre ++ [0]) = length (tb ++ [b])) as L2 by (rewrite !app_length; cbn [length]; lia).
    specialize (IH (pre ++ [0]) (ta ++ [radix_code k]) (tb ++ [b]) Hc L1 L2 kn F).
    cbv zeta in IH. rewrite <- !app_assoc in IH. cbn [app] in IH.
    rewrite zlen_cons. rewrite (zlen_app ta) in IH. change (zlen [radix_code k]) with 1 in IH.
    destruct IH as (I1 & I2 & I3). split; [lia|]. split; [exact I2|exact I3].
Qed.

Lemma color_range_ok count room k n : 0 <= count -> color_quant count room = Some (k, n) ->
  let i := find_cem_range 0 CEM_TABLE_A CEM_TABLE_B count room in
  0 <= i < 17 /\ znth CEM_TABLE_A i = radix_code k /\ znth CEM_TABLE_B i = n /\
  seq_size k n count <= room /\ In (k, n) color_quants.
Proof.
  intros Hc F. pose proof (find_some _ _ F) as [I L]. apply Z.leb_le in L.
  destruct (find_range count room color_quants [] [] [] Hc eq_refl eq_refl (k, n) F) as (A & B & C).
  cbv zeta. repeat split; auto; try exact (proj1 A). apply (proj2 A).
Qed.

Lemma quants_ok k n : In (k, n) color_quants -> quant_ok k n.
Proof.
  intros I. cbn [In color_quants] in I.
  repeat (destruct I as [I|I]; [injection I as <- <-; cbn [quant_ok]; lia|]). contradiction.
Qed.
Lemma weight_quants_ok r k n : weight_quant r = Some (k, n) -> quant_ok k n.
Proof.
  intros E. destruct (Z.le_gt_cases 0 r) as [A|A], (Z.lt_ge_cases r 16) as [B|B].
  - assert (0 <= r < 16) as H by lia. enum r H; try discriminate; injection E as <- <-; cbn [quant_ok]; lia.
  - exfalso. destruct r as [|p|p]; try lia. do 5 (destruct p as [p|p|]; try lia; try discriminate).
  - exfalso. destruct r; try lia; discriminate.
  - lia.
Qed.

(** ** Colour end point modes *)
Lemma cem_values_sweep : all_below 16 (fun c => Z.land (Z.shiftr c 1) 6 + 2 =? cem_values c) = true.
Proof. vm_cast_no_check (eq_refl true). Qed.
Lemma cem_values_ok c : 0 <= c < 16 -> Z.land (Z.shiftr c 1) 6 + 2 = cem_values c.
Proof. intros H. apply Z.eqb_eq. exact (all_below_spec _ _ cem_values_sweep c H). Qed.

(** The modes of block_layout. *)
Definition extra_bits (W : Z) : Z :=
  if (bfield W 11 2 + 1 =? 1) || (bfield W 23 2 =? 0) then 0 else 3 * (bfield W 11 2 + 1) - 4.
Definition cems_of (W wbits : Z) : list Z :=
  let n := bfield W 11 2 + 1 in
  let base := bfield W 23 2 in
  let extra := extra_bits W in
  let E := bfield W 25 4 + 16 * bfield W (128 - wbits - extra) extra in
  if n =? 1 then [bfield W 13 4]
  else if base =? 0 then repeat (bfield W 25 4) (Z.to_nat n)
  else map (fun i => 4 * (base - 1 + bfield E i 1) + bfield E (n + 2 * i) 2) (zrange 0 n).

Lemma join_low x X p : 0 <= x < 16 -> 0 <= p -> p < 4 -> bfield (x + 16 * X) p 1 = bfield x p 1.
Proof.
  intros Hx H1 H2. unfold bfield.
  assert (p = 0 \/ p = 1 \/ p = 2 \/ p = 3) as [-> | [-> | [-> | ->]]] by lia;
  [change (2 ^ 0) with 1|change (2 ^ 1) with 2|change (2 ^ 2) with 4|change (2 ^ 3) with 8];
  change (2 ^ 1) with 2; dlia.
Qed.
Lemma join_high x X p n : 0 <= x < 16 -> 0 <= p -> 0 <= n -> bfield (x + 16 * X) (4 + p) n = bfield X p n.
Proof.
  intros Hx H1 H2. unfold bfield. rewrite div_pow_split by lia. change (2 ^ 4) with 16.
  replace ((x + 16 * X) / 16) with X by dlia. reflexivity.
Qed.

Lemma join_low2 x X p : 0 <= x < 16 -> 0 <= p -> p < 3 -> bfield (x + 16 * X) p 2 = bfield x p 2.
Proof.
  intros. change 2 with (1 + 1). rewrite !bfield_join by lia. rewrite !join_low by lia. reflexivity.
Qed.

Lemma shl_lor2 a b : 0 <= b < 4 -> Z.lor (Z.shiftl a 2) b = 4 * a + b.
Proof. intros. rewrite shl_mul by lia. rewrite lor_add by lia. lia. Qed.

Lemma upd4_0 {A} (a b c d x : A) : upd [a; b; c; d] 0 x = Ok [x; b; c; d]. Proof. reflexivity. Qed.
Lemma upd4_1 {A} (a b c d x : A) : upd [a; b; c; d] 1 x = Ok [a; x; c; d]. Proof. reflexivity. Qed.
Lemma upd4_2 {A} (a b c d x : A) : upd [a; b; c; d] 2 x = Ok [a; b; x; d]. Proof. reflexivity. Qed.
Lemma upd4_3 {A} (a b c d x : A) : upd [a; b; c; d] 3 x = Ok [a; b; c; x]. Proof. reflexivity. Qed.
Lemma idx4_0 {A} (a b c d : A) : idx [a; b; c; d] 0 = Ok a. Proof. reflexivity. Qed.
Lemma idx4_1 {A} (a b c d : A) : idx [a; b; c; d] 1 = Ok b. Proof. reflexivity. Qed.
Lemma idx4_2 {A} (a b c d : A) : idx [a; b; c; d] 2 = Ok c. Proof. reflexivity. Qed.
Lemma idx4_3 {A} (a b c d : A) : idx [a; b; c; d] 3 = Ok d. Proof. reflexivity. Qed.

Section Cem.
Context (m : build) (buf : list Z) (Hb : bytes buf) (Hl : 16 <= zlen buf) (wb : Z) (Hwb : 0 <= wb).
Let W := astc_word buf.
Let n := bfield W 11 2 + 1.
(** Positions of the modes stored below the weights. *)
Context (Hpos : n = 1 \/ bfield W 23 2 = 0 \/ wb <= (if n =? 2 then 126 else if n =? 3 then 122 else 120)).

Lemma cem_bit i : 0 <= i < 4 -> Z.land (Z.shiftr (znth buf 3) (i + 1)) 1 = bfield W (25 + i) 1.
Proof.
  intros. change 1 with (2 ^ 1 - 1) at 2. rewrite land_field by lia. rewrite <- (word_byte buf) by (auto; lia).
  fold W. f_equal. lia.
Qed.
Lemma b3_field p k : 0 <= p -> 0 <= k -> p + k <= 8 -> Z.land (Z.shiftr (znth buf 3) p) (2 ^ k - 1) = bfield W (24 + p) k.
Proof. intros. rewrite land_field by lia. rewrite <- (word_byte buf) by (auto; lia). reflexivity. Qed.

Lemma block_cem_ok : block_cem m buf n wb =
  Ok (if n =? 1 then 0 else bfield W 23 2, cems_of W wb ++ repeat 0 (4 - Z.to_nat n),
      (if n =? 1 then 17 else 29) + extra_bits W).
Proof.
  unfold block_cem, cems_of, extra_bits. fold n. pose proof (bfield_range W 11 2 ltac:(lia)). change (2 ^ 2) with 4 in *.
  destruct (Z.eqb_spec n 1) as [E|E].
  { cbn [orb]. destruct (u16_word buf Hb Hl 1 ltac:(lia)) as (s & -> & U). cbn [bind]. rewrite U. cbn [bind].
    change 0xf with (2 ^ 4 - 1). rewrite land_field by lia. rewrite bfield_sub by lia. fold W. rewrite E. reflexivity. }
  cbn [orb]. destruct (u16_word buf Hb Hl 2 ltac:(lia)) as (s & -> & U). cbn [bind]. rewrite U. cbn [bind]. fold W.
  rewrite (idx_ok buf 3) by lia. cbn [bind].
  assert (Z.land (Z.shiftr (bfield W (8 * 2) 16) 7) 3 = bfield W 23 2) as ->.
  { change 3 with (2 ^ 2 - 1). rewrite land_field by lia. apply bfield_sub; lia. }
  destruct (Z.eqb_spec (bfield W 23 2) 0) as [E0|E0].
  { change 0xf with (2 ^ 4 - 1). rewrite b3_field by lia. change (24 + 1) with 25.
    assert (n = 2 \/ n = 3 \/ n = 4) as [-> | [-> | ->]] by (unfold n in *; lia); reflexivity. }
  pose proof (bfield_range W 25 4 ltac:(lia)) as R4. change (2 ^ 4) with 16 in R4.
  pose proof (bfield_range W 23 2 ltac:(lia)) as R3.
  destruct Hpos as [Hp|[Hp|Hp]]; [contradiction|contradiction|].
  assert (n = 2 \/ n = 3 \/ n = 4) as [En | [En | En]] by (unfold n in *; lia); rewrite En in *; clear En; cbn [Z.eqb Pos.eqb] in Hp.
  - change (3 * 2 - 4) with 2. unfold for_range. change (zrange 0 2) with [0; 1]. cbn [map for_list].
    rewrite !cem_bit by lia. rewrite upd4_0. cbn [bind]. rewrite upd4_1. cbn [bind].
    rewrite idx4_0. cbn [bind]. rewrite upd4_0. cbn [bind].
    rewrite ua_ok by lia. cbn [bind]. rewrite getbits_word by (auto; lia). cbn [bind].
    rewrite idx4_1. cbn [bind]. rewrite upd4_1. cbn [bind].
    assert (Z.land (Z.shiftr (znth buf 3) 3) 3 = bfield W (24 + 3) 2) as -> by (apply (b3_field 3 2); lia). fold W.
    rewrite !shl_lor2 by (apply (bfield_range _ _ 2); lia).
    rewrite !join_low by lia. rewrite join_low2 by lia. change (2 + 2 * 1) with (4 + 0). rewrite join_high by lia.
    rewrite !bfield_sub by lia. replace (128 - wb - 2 + 0) with (126 - wb) by lia.
    change (25 + (2 + 2 * 0)) with (24 + 3). 
    match goal with |- Ok (?a, ?b, ?c) = Ok (?a', ?b', ?c') => assert (b = b') as ->; [|reflexivity] end.
    cbn [app repeat Nat.sub Z.to_nat Pos.to_nat Pos.iter_op Nat.add]. repeat (f_equal; try lia).
  - change (3 * 3 - 4) with 5. unfold for_range. change (zrange 0 3) with [0; 1; 2]. cbn [map for_list].
    rewrite !cem_bit by lia. rewrite upd4_0. cbn [bind]. rewrite upd4_1. cbn [bind]. rewrite upd4_2. cbn [bind].
    rewrite idx4_0. cbn [bind]. rewrite upd4_0. cbn [bind].
    rewrite (ua_ok m 64 (122 - wb)) by lia. cbn [bind]. rewrite getbits_word by (auto; lia). cbn [bind].
    rewrite idx4_0. cbn [bind]. rewrite upd4_0. cbn [bind].
    rewrite (ua_ok m 64 (124 - wb)) by lia. cbn [bind]. rewrite getbits_word by (auto; lia). cbn [bind].
    rewrite idx4_1. cbn [bind]. rewrite upd4_1. cbn [bind].
    rewrite ua_ok by lia. cbn [bind]. rewrite getbits_word by (auto; lia). cbn [bind].
    rewrite idx4_2. cbn [bind]. rewrite upd4_2. cbn [bind].
    change (Z.land (Z.shiftr (znth buf 3) 4) 1) with (Z.land (Z.shiftr (znth buf 3) (3 + 1)) 1).
    rewrite (cem_bit 3) by lia. fold W. change (25 + 3) with 28.
    assert (Z.land (bfield W (122 - wb) 2) 2 = 2 * bfield W (123 - wb) 1) as ->.
    { change 2 with (1 + 1) at 1. rewrite bfield_join by lia. change (2 ^ 1) with 2.
      replace (122 - wb + 1) with (123 - wb) by lia.
      pose proof (bfield_range W (122 - wb) 1 ltac:(lia)) as A. pose proof (bfield_range W (123 - wb) 1 ltac:(lia)) as B.
      assert (bfield W (122 - wb) 1 = 0 \/ bfield W (122 - wb) 1 = 1) as [-> | ->] by lia;
      assert (bfield W (123 - wb) 1 = 0 \/ bfield W (123 - wb) 1 = 1) as [-> | ->] by lia; reflexivity. }
    rewrite (shl_lor2 _ (bfield W 28 1)) by (pose proof (bfield_range W 28 1 ltac:(lia)); lia).
    rewrite !shl_lor2 by (apply (bfield_range _ _ 2); lia).
    assert (Z.lor (4 * (bfield W (25 + 0) 1 + bfield W 23 2 - 1) + bfield W 28 1) (2 * bfield W (123 - wb) 1) =
      4 * (bfield W (25 + 0) 1 + bfield W 23 2 - 1) + (bfield W 28 1 + 2 * bfield W (123 - wb) 1)) as ->.
    { rewrite <- (shl_lor2 _ (bfield W 28 1)) by (pose proof (bfield_range W 28 1 ltac:(lia)); lia).
      rewrite <- Z.lor_assoc. pose proof (bfield_range W 28 1 ltac:(lia)). pose proof (bfield_range W (123 - wb) 1 ltac:(lia)).
      rewrite (Z.mul_comm 2). rewrite (lor_comm_add _ _ 1) by lia. rewrite shl_lor2 by lia. lia. }
    rewrite !join_low by lia. change (3 + 2 * 1) with (4 + 1). change (3 + 2 * 2) with (4 + 3).
    change (3 + 2 * 0) with 3. rewrite !join_high by lia.
    assert (forall x, bfield x 3 2 = bfield x 3 1 + 2 * bfield x 4 1) as J2 by (intros; change 2 with (1 + 1) at 1; rewrite bfield_join by lia; reflexivity).
    rewrite J2. rewrite join_low by lia. change (bfield (bfield W 25 4 + 16 * bfield W (128 - wb - 5) 5) 4 1)
      with (bfield (bfield W 25 4 + 16 * bfield W (128 - wb - 5) 5) (4 + 0) 1). rewrite join_high by lia.
    rewrite !bfield_sub by lia. replace (128 - wb - 5 + 0) with (123 - wb) by lia.
    replace (128 - wb - 5 + 1) with (124 - wb) by lia. replace (128 - wb - 5 + 3) with (126 - wb) by lia.
    change (25 + 3) with 28.
    match goal with |- Ok (?a, ?b, ?c) = Ok (?a', ?b', ?c') => assert (b = b') as ->; [|reflexivity] end.
    cbn [app repeat Nat.sub Z.to_nat Pos.to_nat Pos.iter_op Nat.add]. repeat (f_equal; try lia).
  - change (3 * 4 - 4) with 8. unfold for_range. change (zrange 0 4) with [0; 1; 2; 3]. cbn [map for_list].
    rewrite !cem_bit by lia. rewrite upd4_0. cbn [bind]. rewrite upd4_1. cbn [bind]. rewrite upd4_2. cbn [bind]. rewrite upd4_3. cbn [bind].
    rewrite (ua_ok m 64 (120 + 0 * 2 - wb)) by lia. cbn [bind]. rewrite getbits_word by (auto; lia). cbn [bind].
    rewrite idx4_0. cbn [bind]. rewrite upd4_0. cbn [bind].
    rewrite (ua_ok m 64 (120 + 1 * 2 - wb)) by lia. cbn [bind]. rewrite getbits_word by (auto; lia). cbn [bind].
    rewrite idx4_1. cbn [bind]. rewrite upd4_1. cbn [bind].
    rewrite (ua_ok m 64 (120 + 2 * 2 - wb)) by lia. cbn [bind]. rewrite getbits_word by (auto; lia). cbn [bind].
    rewrite idx4_2. cbn [bind]. rewrite upd4_2. cbn [bind].
    rewrite ua_ok by lia. cbn [bind]. rewrite getbits_word by (auto; lia). cbn [bind].
    rewrite idx4_3. cbn [bind]. rewrite upd4_3. cbn [bind]. fold W.
    rewrite !shl_lor2 by (apply (bfield_range _ _ 2); lia).
    change (4 + 2 * 1) with (4 + 2). change (4 + 2 * 2) with (4 + 4). change (4 + 2 * 3) with (4 + 6). change (4 + 2 * 0) with (4 + 0).
    rewrite !join_low by lia. rewrite !join_high by lia. rewrite !bfield_sub by lia.
    replace (128 - wb - 8 + 0) with (120 + 0 * 2 - wb) by lia. replace (128 - wb - 8 + 2) with (120 + 1 * 2 - wb) by lia.
    replace (128 - wb - 8 + 4) with (120 + 2 * 2 - wb) by lia. replace (128 - wb - 8 + 6) with (120 + 3 * 2 - wb) by lia.
    match goal with |- Ok (?a, ?b, ?c) = Ok (?a', ?b', ?c') => assert (b = b') as ->; [|reflexivity] end.
    cbn [app repeat Nat.sub Z.to_nat Pos.to_nat Pos.iter_op Nat.add]. repeat (f_equal; try lia).
Qed.

Lemma cems_range c : In c (cems_of W wb) -> 0 <= c < 16.
Proof.
  unfold cems_of. fold n. destruct (n =? 1).
  { intros [<-|[]]. apply (bfield_range W 13 4); lia. }
  destruct (Z.eqb_spec (bfield W 23 2) 0).
  { intros I. apply repeat_spec in I. subst c. apply (bfield_range W 25 4); lia. }
  intros I. apply in_map_iff in I. destruct I as (i & <- & _).
  set (E := bfield W 25 4 + _). pose proof (bfield_range E i 1 ltac:(lia)). pose proof (bfield_range E (n + 2 * i) 2 ltac:(lia)).
  pose proof (bfield_range W 23 2 ltac:(lia)). lia.
Qed.
Lemma cems_length : zlen (cems_of W wb) = n.
Proof.
  unfold cems_of. fold n. pose proof (bfield_range W 11 2 ltac:(lia)).
  destruct (Z.eqb_spec n 1); [rewrite e; reflexivity|].
  destruct (bfield W 23 2 =? 0).
  - unfold zlen. rewrite repeat_length. unfold n. lia.
  - unfold zlen. rewrite map_length. unfold n in *.
    assert (bfield W 11 2 = 1 \/ bfield W 11 2 = 2 \/ bfield W 11 2 = 3) as [-> | [-> | ->]] by lia; reflexivity.
Qed.
End Cem.

Lemma firstn_snoc_nth {A} (l : list A) n d : (n < length l)%nat -> firstn (S n) l = firstn n l ++ [nth n l d].
Proof.
  revert n; induction l as [|a l IH]; intros n H; [cbn in H; lia|]. destruct n; [reflexivity|].
  cbn [firstn app nth length] in *. f_equal. apply IH. lia.
Qed.

(** The number of end point values. *)
Lemma value_count cems rest : (forall c, In c cems -> 0 <= c < 16) ->
  for_range 0 (zlen cems) (fun i n => let* c := idx (cems ++ rest) i in Ok (n + (Z.land (Z.shiftr c 1) 6 + 2))) 0 =
  Ok (zsum (map cem_values cems)).
Proof.
  intros H.
  destruct (for_range_inv (fun i s => s = zsum (map cem_values (firstn (Z.to_nat i) cems))) 0 (zlen cems)
    (fun i n => let* c := idx (cems ++ rest) i in Ok (n + (Z.land (Z.shiftr c 1) 6 + 2))) 0) as (s & E & I).
  - apply zlen_nonneg.
  - reflexivity.
  - intros i s Hi ->. rewrite idx_ok by (rewrite zlen_app; pose proof (zlen_nonneg rest); lia). cbn [bind].
    eexists; split; [reflexivity|].
    assert (znth (cems ++ rest) i = znth cems i) as -> by (unfold znth, zlen in *; rewrite app_nth1 by lia; auto).
    assert (In (znth cems i) cems) as I by (unfold znth, zlen in *; apply nth_In; lia).
    rewrite cem_values_ok by auto. replace (Z.to_nat (i + 1)) with (S (Z.to_nat i)) by lia.
    rewrite (firstn_snoc_nth cems (Z.to_nat i) 0) by (unfold zlen in *; lia).
    rewrite map_app. unfold zsum. rewrite fold_right_app. cbn [map fold_right].
    fold (znth cems i). generalize (map cem_values (firstn (Z.to_nat i) cems)). intros l. clear.
    unfold znth. generalize (cem_values (nth (Z.to_nat i) cems 0)). intros v.
    induction l; cbn [fold_right]; lia.
  - rewrite E, I. do 3 f_equal. apply firstn_all2. unfold zlen; lia.
Qed.

(** ** Parameters of a legal block *)
Lemma legal_params m buf l : bytes buf -> 16 <= zlen buf ->
  let W := astc_word buf in
  block_layout W = Some l ->
  let g := l_grid l in
  exists range, decode_block_params m buf =
    Ok (mkParams (g_width g) (g_height g) (l_parts l) (g_dual g) (l_plane l) (g_range g) (l_wcount l)
         (l_cems l ++ repeat 0 (4 - Z.to_nat (l_parts l))) range (l_cvalues l)) /\
    znth CEM_TABLE_A range = radix_code (fst (l_cq l)) /\ znth CEM_TABLE_B range = snd (l_cq l) /\
    0 <= range < 17.
Proof.
  intros Hb Hl W HL g.
  unfold block_layout in HL. pose proof (block_grid_ok buf Hb Hl) as G. cbv zeta in G. fold W in G.
  destruct (block_mode W) as [g'|]; [|discriminate].
  destruct G as (_ & G & Gw & Gh & Gn & Gr & k & n & Q & TA & TB). rewrite Q in HL.
  set (wcount := g_width g' * g_height g' * (if g_dual g' then 2 else 1)) in *.
  set (wbits := seq_size k n wcount) in *. set (parts := bfield W 11 2 + 1) in *.
  change (if (parts =? 1) || (bfield W 23 2 =? 0) then 0 else 3 * parts - 4) with (extra_bits W) in HL.
  change (if parts =? 1 then [bfield W 13 4] else if bfield W 23 2 =? 0 then repeat (bfield W 25 4) (Z.to_nat parts)
    else map (fun i => 4 * (bfield W 23 2 - 1 + bfield (bfield W 25 4 + 16 * bfield W (128 - wbits - extra_bits W) (extra_bits W)) i 1)
       + bfield (bfield W 25 4 + 16 * bfield W (128 - wbits - extra_bits W) (extra_bits W)) (parts + 2 * i) 2) (zrange 0 parts))
    with (cems_of W wbits) in HL. cbv zeta in HL.
  set (room := 128 - wbits - extra_bits W - (if g_dual g' then 2 else 0) - (if parts =? 1 then 17 else 29)) in *.
  set (cvalues := zsum (map cem_values (cems_of W wbits))) in *.
  destruct (color_quant cvalues room) as [cq|] eqn:CQ; [|discriminate].
  destruct (Z.leb_spec wcount 64) as [C1|C1]; [|discriminate]. destruct (Z.leb_spec wbits 96) as [C2|C2]; [|discriminate].
  cbn [andb] in HL. injection HL as <-. unfold g. cbn [l_grid l_parts l_plane l_wcount l_cems l_cvalues l_cq]. clear g.
  pose proof (weight_quants_ok _ _ _ Q) as QO.
  assert (0 <= n) by (destruct k; cbn [quant_ok] in QO; lia).
  assert (0 <= g_width g' * g_height g') as A0 by (apply Z.mul_nonneg_nonneg; lia).
  assert (0 <= wcount) by (unfold wcount; destruct (g_dual g'); lia).
  pose proof (seq_size_nonneg k n wcount ltac:(auto) ltac:(auto)) as A1. fold wbits in A1.
  assert (0 <= parts - 1 < 4) as P4 by (unfold parts; pose proof (bfield_range W 11 2 ltac:(lia)); change (2 ^ 2) with 4 in *; lia).
  assert (Hcv : 0 <= cvalues).
  { unfold cvalues. pose proof (cems_range buf wbits) as CR. fold W in CR.
    generalize (cems_of W wbits) CR. intros cs. induction cs as [|c cs IH]; intros CR'; [cbn; lia|].
    cbn [map zsum fold_right]. fold (zsum (map cem_values cs)). specialize (IH (fun c' I => CR' c' (or_intror I))).
    specialize (CR' c (or_introl eq_refl)). unfold cem_values at 1. assert (0 <= c / 4) by (apply Z.div_pos; lia). lia. }
  destruct cq as [ck cn]. pose proof (color_range_ok cvalues room ck cn Hcv CQ) as CR. cbv zeta in CR.
  destruct CR as (R1 & R2 & R3 & R4 & R5).
  pose proof (quants_ok _ _ R5) as CQO. assert (0 <= cn) by (destruct ck; cbn [quant_ok] in CQO; lia).
  pose proof (seq_size_nonneg ck cn cvalues ltac:(auto) ltac:(auto)).
  exists (find_cem_range 0 CEM_TABLE_A CEM_TABLE_B cvalues room). split; [|auto].
  unfold decode_block_params. rewrite G. cbn [bind]. rewrite (idx_ok buf 1) by lia. cbn [bind].
  assert (Z.land (Z.shiftr (znth buf 1) 3) 3 + 1 = parts) as ->.
  { change 3 with (2 ^ 2 - 1) at 2. rewrite land_field by lia. rewrite <- (word_byte buf) by (auto; lia). reflexivity. }
  assert ((if g_dual g' then g_width g' * g_height g' * 2 else g_width g' * g_height g') = wcount) as ->
    by (unfold wcount; destruct (g_dual g'); lia).
  rewrite !idx_ok by (split; [lia|]; apply Z.lt_le_trans with 16; [lia|vm_compute; discriminate]). cbn [bind].
  rewrite TA, TB. rewrite weight_bits_ok by auto. fold wbits.
  unfold parts at 1. unfold W at 1. rewrite block_cem_ok by (auto; right; right; fold W; fold parts; destruct (parts =? 2), (parts =? 3); lia). cbn [bind]. fold W. fold parts.
  set (cems := cems_of W wbits) in *.
  assert (0 <= extra_bits W <= 8) as XB by (unfold extra_bits; fold parts; destruct (Z.eqb_spec parts 1); cbn [orb]; [lia|destruct (bfield W 23 2 =? 0); lia]).
  assert (extra_bits W = if negb ((if parts =? 1 then 0 else bfield W 23 2) =? 0) then 3 * parts - 4 else 0) as XE.
  { unfold extra_bits. fold parts. destruct (parts =? 1); cbn [orb]; auto. destruct (bfield W 23 2 =? 0); auto. }
  assert (0 <= room) as RM by lia.
  match goal with |- context [if g_dual g' then ?e else ?f] =>
    assert ((if g_dual g' then e else f) = Ok ((if parts =? 1 then 17 else 29) + extra_bits W + (if g_dual g' then 2 else 0),
       if g_dual g' then bfield W (128 - wbits - extra_bits W - 2) 2 else 0)) as -> end.
  { destruct (g_dual g'); [|rewrite Z.add_0_r; reflexivity].
    set (c := negb ((if parts =? 1 then 0 else bfield W 23 2) =? 0)) in *.
    assert ((if c then let* x := ua m 64 (130 - wbits) in ua m 64 (x - parts * 3) else ua m 64 (126 - wbits)) =
      Ok (128 - wbits - extra_bits W - 2)) as ->.
    { destruct c.
      - rewrite (ua_ok m 64 (130 - wbits)) by lia. cbn [bind]. rewrite ua_ok by lia. f_equal. lia.
      - rewrite ua_ok by lia. f_equal. lia. }
    cbn [bind]. rewrite getbits_word by (auto; lia). cbn [bind]. reflexivity. }
  cbn [bind].
  assert (0 <= (if g_dual g' then 2 else 0) <= 2) by (destruct (g_dual g'); lia).
  assert (17 <= (if parts =? 1 then 17 else 29) <= 29) by (destruct (parts =? 1); lia).
  rewrite (ua_ok m 64 (128 - _)) by lia. cbn [bind].
  replace (128 - ((if parts =? 1 then 17 else 29) + extra_bits W + (if g_dual g' then 2 else 0)) - wbits) with room by (unfold room; lia).
  rewrite ua_ok by (unfold room in *; lia). cbn [bind].
  assert (zlen cems = parts) as LC by (apply cems_length; auto).
  rewrite <- LC at 1. rewrite value_count by (intros c; apply cems_range). cbn [bind]. reflexivity.
Qed.

(** What a layout promises. *)
Record layout_ok (W : Z) (l : layout) : Prop := {
  lo_mode : block_mode W = Some (l_grid l);
  lo_width : 2 <= g_width (l_grid l) <= 12;
  lo_height : 2 <= g_height (l_grid l) <= 12;
  lo_range : 2 <= g_range (l_grid l) <= 15;
  lo_quant : weight_quant (g_range (l_grid l)) = Some (l_wq l);
  lo_taba : znth WEIGHT_PREC_TABLE_A (g_range (l_grid l)) = radix_code (fst (l_wq l));
  lo_tabb : znth WEIGHT_PREC_TABLE_B (g_range (l_grid l)) = snd (l_wq l);
  lo_wcount : l_wcount l = g_width (l_grid l) * g_height (l_grid l) * (if g_dual (l_grid l) then 2 else 1);
  lo_wcount64 : 0 <= l_wcount l <= 64;
  lo_wbits : l_wbits l = seq_size (fst (l_wq l)) (snd (l_wq l)) (l_wcount l);
  lo_wbits96 : 0 <= l_wbits l <= 96;
  lo_parts : l_parts l = bfield W 11 2 + 1;
  lo_parts4 : 1 <= l_parts l <= 4;
  lo_cems : zlen (l_cems l) = l_parts l;
  lo_cem : forall c, In c (l_cems l) -> 0 <= c < 16;
  lo_plane : 0 <= l_plane l < 4;
  lo_cvalues : l_cvalues l = zsum (map cem_values (l_cems l));
  lo_cq : In (l_cq l) color_quants;
  lo_cstart : l_cstart l = if l_parts l =? 1 then 17 else 29;
  lo_fits : l_cstart l + seq_size (fst (l_cq l)) (snd (l_cq l)) (l_cvalues l) <= 128
}.

Lemma zsum_values cems : (forall c, In c cems -> 0 <= c < 16) -> 0 <= zsum (map cem_values cems) <= 8 * zlen cems.
Proof.
  induction cems as [|c cs IH]; intros H; [cbn; lia|].
  cbn [map zsum fold_right]. fold (zsum (map cem_values cs)). rewrite zlen_cons.
  specialize (IH (fun c' I => H c' (or_intror I))). specialize (H c (or_introl eq_refl)).
  unfold cem_values at 1 3. assert (0 <= c / 4 < 4) by (split; [apply Z.div_pos; lia|apply Z.div_lt_upper_bound; lia]). lia.
Qed.

Lemma layout_facts buf l : bytes buf -> 16 <= zlen buf -> block_layout (astc_word buf) = Some l -> layout_ok (astc_word buf) l.
Proof.
  intros Hb Hl HL. set (W := astc_word buf) in *.
  unfold block_layout in HL. pose proof (block_grid_ok buf Hb Hl) as G. cbv zeta in G. fold W in G.
  destruct (block_mode W) as [g'|] eqn:BM; [|discriminate].
  destruct G as (_ & G & Gw & Gh & Gn & Gr & k & n & Q & TA & TB). rewrite Q in HL.
  set (wcount := g_width g' * g_height g' * (if g_dual g' then 2 else 1)) in *.
  set (wbits := seq_size k n wcount) in *. set (parts := bfield W 11 2 + 1) in *.
  change (if (parts =? 1) || (bfield W 23 2 =? 0) then 0 else 3 * parts - 4) with (extra_bits W) in HL.
  change (if parts =? 1 then [bfield W 13 4] else if bfield W 23 2 =? 0 then repeat (bfield W 25 4) (Z.to_nat parts)
    else map (fun i => 4 * (bfield W 23 2 - 1 + bfield (bfield W 25 4 + 16 * bfield W (128 - wbits - extra_bits W) (extra_bits W)) i 1)
       + bfield (bfield W 25 4 + 16 * bfield W (128 - wbits - extra_bits W) (extra_bits W)) (parts + 2 * i) 2) (zrange 0 parts))
    with (cems_of W wbits) in HL. cbv zeta in HL.
  set (room := 128 - wbits - extra_bits W - (if g_dual g' then 2 else 0) - (if parts =? 1 then 17 else 29)) in *.
  set (cvalues := zsum (map cem_values (cems_of W wbits))) in *.
  destruct (color_quant cvalues room) as [cq|] eqn:CQ; [|discriminate].
  destruct (Z.leb_spec wcount 64) as [C1|C1]; [|discriminate]. destruct (Z.leb_spec wbits 96) as [C2|C2]; [|discriminate].
  cbn [andb] in HL. injection HL as <-.
  pose proof (weight_quants_ok _ _ _ Q) as QO.
  assert (0 <= n) by (destruct k; cbn [quant_ok] in QO; lia).
  assert (0 <= g_width g' * g_height g') as A0 by (apply Z.mul_nonneg_nonneg; lia).
  assert (0 <= wcount) by (unfold wcount; destruct (g_dual g'); lia).
  pose proof (seq_size_nonneg k n wcount ltac:(auto) ltac:(auto)) as A1. fold wbits in A1.
  assert (0 <= parts - 1 < 4) as P4 by (unfold parts; pose proof (bfield_range W 11 2 ltac:(lia)); change (2 ^ 2) with 4 in *; lia).
  pose proof (cems_range buf wbits) as CRg. fold W in CRg.
  pose proof (zsum_values _ CRg) as Hcv. fold cvalues in Hcv.
  destruct cq as [ck cn]. pose proof (color_range_ok cvalues room ck cn ltac:(lia) CQ) as CR. cbv zeta in CR.
  destruct CR as (R1 & R2 & R3 & R4 & R5).
  assert (0 <= extra_bits W <= 8) as XB by (unfold extra_bits; fold parts; destruct (Z.eqb_spec parts 1); cbn [orb]; [lia|destruct (bfield W 23 2 =? 0); lia]).
  assert (0 <= (if g_dual g' then 2 else 0)) by (destruct (g_dual g'); lia).
  constructor; cbn [l_grid l_wq l_wcount l_wbits l_parts l_cems l_plane l_cstart l_cvalues l_cq fst snd]; auto; try lia.
  - apply cems_length; auto.
  - destruct (g_dual g'); [|lia]. apply (bfield_range W _ 2). lia.
Qed.
