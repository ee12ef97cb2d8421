(** * Proofs about the pictures a format can store: solid blocks in BC7 and ASTC. *)
From Verif Require Import Base BaseLemmas BitLemmas ModelColor SpecImage SpecBits SpecBptc SpecBc SpecBc7 SpecAstc SpecCut ProofCut SpecEncode ProofEncode.

Fixpoint to_bytes (n : nat) (N : Z) : list Z := match n with O => [] | S n => N mod 256 :: to_bytes n (N / 256) end.
Lemma to_bytes_bytes n : forall N, bytes (to_bytes n N).
Proof. induction n as [|n IH]; intros N; cbn [to_bytes]; [constructor|]. constructor; [apply Z.mod_pos_bound; lia|apply IH]. Qed.
Lemma to_bytes_len n : forall N, length (to_bytes n N) = n.
Proof. induction n as [|n IH]; intros N; cbn [to_bytes length]; [reflexivity|]. rewrite IH. reflexivity. Qed.
Lemma le_to_bytes n : forall N, 0 <= N < 256 ^ Z.of_nat n -> le_bytes (to_bytes n N) = N.
Proof.
  induction n as [|n IH]; intros N HN.
  - change (256 ^ Z.of_nat 0) with 1 in HN. cbn. lia.
  - cbn [to_bytes le_bytes]. rewrite Nat2Z.inj_succ, Z.pow_succ_r in HN by lia. rewrite IH.
    + pose proof (Z.div_mod N 256 ltac:(lia)). lia.
    + split; [apply Z.div_pos; lia|apply Z.div_lt_upper_bound; lia].
Qed.
Lemma field_at N p n lo v hi : 0 <= p -> 0 <= n -> 0 <= lo < 2 ^ p -> 0 <= v < 2 ^ n -> N = lo + 2 ^ p * (v + 2 ^ n * hi) -> N / 2 ^ p mod 2 ^ n = v.
Proof.
  intros Hp Hn Hlo Hv ->. assert (0 < 2 ^ p) by (apply Z.pow_pos_nonneg; lia). assert (0 < 2 ^ n) by (apply Z.pow_pos_nonneg; lia).
  rewrite (Z.mul_comm (2 ^ p)), Z.div_add, Z.div_small, Z.add_0_l by lia. rewrite (Z.mul_comm (2 ^ n)), Z.mod_add by lia. apply Z.mod_small, Hv.
Qed.

(** ** BC7, mode 5: seven-bit end points, all colour indices 1, all alpha indices 0 *)
Definition low7 (v : Z) : Z := (v - v / 128) / 2.
Definition high7 (v : Z) : Z := low7 v + (v - expand8 7 (low7 v)).
Definition ones : Z := 1 + 2 * 0x15555555.
Definition solid7 (r g b a : Z) : Z :=
  32 + 2 ^ 8 * (low7 r + 2 ^ 7 * (high7 r + 2 ^ 7 * (low7 g + 2 ^ 7 * (high7 g + 2 ^ 7 * (low7 b + 2 ^ 7 * (high7 b + 2 ^ 7 * (a + 2 ^ 8 * (0 + 2 ^ 8 * ones)))))))).
Lemma solid7_sweep : all_below 256 (fun v => (0 <=? low7 v) && (low7 v <? 128) && (0 <=? high7 v) && (high7 v <? 128) && (lerp64 (expand8 7 (low7 v)) (expand8 7 (high7 v)) 21 =? v)) = true.
Proof. vm_compute. reflexivity. Qed.
Lemma solid7_ok v : is_byte v -> 0 <= low7 v < 128 /\ 0 <= high7 v < 128 /\ lerp64 (expand8 7 (low7 v)) (expand8 7 (high7 v)) 21 = v.
Proof.
  intros Hv. pose proof (all_below_spec _ _ solid7_sweep v Hv) as H. cbn beta in H.
  apply andb_prop in H. destruct H as [H H5]. apply andb_prop in H. destruct H as [H H4]. apply andb_prop in H. destruct H as [H H3]. apply andb_prop in H. destruct H as [H1 H2].
  apply Z.leb_le in H1, H3. apply Z.ltb_lt in H2, H4. apply Z.eqb_eq in H5. auto.
Qed.
Section Solid7.
Context (r g b a : Z) (Hr : is_byte r) (Hg : is_byte g) (Hb : is_byte b) (Ha : is_byte a).
Let N := solid7 r g b a.
Let blk := to_bytes 16 N.
Lemma solid7_range : 0 <= N < 2 ^ 128.
Proof.
  destruct (solid7_ok r Hr) as (R0 & R1 & _), (solid7_ok g Hg) as (G0 & G1 & _), (solid7_ok b Hb) as (B0 & B1 & _). unfold is_byte in Ha.
  unfold N, solid7, ones. change (2 ^ 8) with 256. change (2 ^ 7) with 128. change (2 ^ 128) with 340282366920938463463374607431768211456. lia.
Qed.
Lemma blk_bits p n : bits blk p n = N / 2 ^ p mod 2 ^ n.
Proof. unfold bits, blk. rewrite le_to_bytes by (apply solid7_range). reflexivity. Qed.
Ltac bounds := destruct (solid7_ok r Hr) as (R0 & R1 & R2), (solid7_ok g Hg) as (G0 & G1 & G2), (solid7_ok b Hb) as (B0 & B1 & B2); pose proof Ha as A0; unfold is_byte in A0.
Ltac pows := change (2 ^ 0) with 1; change (2 ^ 1) with 2; change (2 ^ 2) with 4; change (2 ^ 3) with 8; change (2 ^ 4) with 16; change (2 ^ 5) with 32; change (2 ^ 6) with 64; change (2 ^ 7) with 128; change (2 ^ 8) with 256;
  change (2 ^ 15) with 32768; change (2 ^ 22) with 4194304; change (2 ^ 29) with 536870912; change (2 ^ 36) with 68719476736; change (2 ^ 43) with 8796093022208; change (2 ^ 50) with 1125899906842624; change (2 ^ 58) with 288230376151711744; change (2 ^ 66) with 73786976294838206464.
Definition tail8 : Z := (low7 r + 2 ^ 7 * (high7 r + 2 ^ 7 * (low7 g + 2 ^ 7 * (high7 g + 2 ^ 7 * (low7 b + 2 ^ 7 * (high7 b + 2 ^ 7 * (a + 2 ^ 8 * (0 + 2 ^ 8 * ones)))))))).
Lemma N_tail : N = 32 + 2 ^ 8 * tail8. Proof. reflexivity. Qed.
Lemma solid7_mode : bc7_mode blk = 5.
Proof.
  unfold bc7_mode. change (zrange 0 8) with [0; 1; 2; 3; 4; 5; 6; 7].
  assert (forall i, 0 <= i < 5 -> bits blk i 1 = 0) as Z0.
  { intros i Hi. rewrite blk_bits, N_tail. apply (field_at _ i 1 0 0 (2 ^ (4 - i) + 2 ^ (7 - i) * tail8)); try lia; try (apply Z.pow_pos_nonneg; lia).
    assert (i = 0 \/ i = 1 \/ i = 2 \/ i = 3 \/ i = 4) as [->|[->|[->|[->| ->]]]] by lia; repeat match goal with |- context [2 ^ (?a - ?b)] => let v := eval vm_compute in (2 ^ (a - b)) in change (2 ^ (a - b)) with v end; pows; lia. }
  assert (bits blk 5 1 = 1) as Z5.
  { rewrite blk_bits, N_tail. apply (field_at _ 5 1 0 1 (4 * tail8)); try lia. }
  cbn [filter]. rewrite !Z0 by lia. rewrite Z5. reflexivity.
Qed.
Lemma solid7_rot : bits blk 6 2 = 0.
Proof. rewrite blk_bits, N_tail. apply (field_at _ 6 2 32 0 tail8); lia. Qed.
Ltac fld := rewrite blk_bits; unfold N, solid7.
Lemma solid7_r0 : bits blk 8 7 = low7 r.
Proof. bounds. rewrite blk_bits. eapply (field_at _ 8 7 32); [lia|lia|pows; lia|pows; lia|reflexivity]. Qed.
Lemma solid7_r1 : bits blk 15 7 = high7 r.
Proof. bounds. rewrite blk_bits. apply (field_at _ 15 7 (32 + 256 * low7 r) _ ((low7 g + 2 ^ 7 * (high7 g + 2 ^ 7 * (low7 b + 2 ^ 7 * (high7 b + 2 ^ 7 * (a + 2 ^ 8 * (0 + 2 ^ 8 * ones)))))))); [lia|lia|pows; lia|pows; lia|]. unfold N, solid7. pows. ring. Qed.
Lemma solid7_g0 : bits blk 22 7 = low7 g.
Proof. bounds. rewrite blk_bits. apply (field_at _ 22 7 (32 + 256 * low7 r + 32768 * high7 r) _ ((high7 g + 2 ^ 7 * (low7 b + 2 ^ 7 * (high7 b + 2 ^ 7 * (a + 2 ^ 8 * (0 + 2 ^ 8 * ones))))))); [lia|lia|pows; lia|pows; lia|]. unfold N, solid7. pows. ring. Qed.
Lemma solid7_g1 : bits blk 29 7 = high7 g.
Proof. bounds. rewrite blk_bits. apply (field_at _ 29 7 (32 + 256 * low7 r + 32768 * high7 r + 4194304 * low7 g) _ ((low7 b + 2 ^ 7 * (high7 b + 2 ^ 7 * (a + 2 ^ 8 * (0 + 2 ^ 8 * ones)))))); [lia|lia|pows; lia|pows; lia|]. unfold N, solid7. pows. ring. Qed.
Lemma solid7_b0 : bits blk 36 7 = low7 b.
Proof. bounds. rewrite blk_bits. apply (field_at _ 36 7 (32 + 256 * low7 r + 32768 * high7 r + 4194304 * low7 g + 536870912 * high7 g) _ ((high7 b + 2 ^ 7 * (a + 2 ^ 8 * (0 + 2 ^ 8 * ones))))); [lia|lia|pows; lia|pows; lia|]. unfold N, solid7. pows. ring. Qed.
Lemma solid7_b1 : bits blk 43 7 = high7 b.
Proof. bounds. rewrite blk_bits. apply (field_at _ 43 7 (32 + 256 * low7 r + 32768 * high7 r + 4194304 * low7 g + 536870912 * high7 g + 68719476736 * low7 b) _ ((a + 2 ^ 8 * (0 + 2 ^ 8 * ones)))); [lia|lia|pows; lia|pows; lia|]. unfold N, solid7. pows. ring. Qed.
Lemma solid7_a0 : bits blk 50 8 = a.
Proof. bounds. rewrite blk_bits. apply (field_at _ 50 8 (32 + 256 * low7 r + 32768 * high7 r + 4194304 * low7 g + 536870912 * high7 g + 68719476736 * low7 b + 8796093022208 * high7 b) _ ((0 + 2 ^ 8 * ones))); [lia|lia|pows; lia|pows; lia|]. unfold N, solid7. pows. ring. Qed.
Lemma solid7_high : N / 2 ^ 66 = ones.
Proof.
  bounds. assert (N = 32 + 256 * low7 r + 32768 * high7 r + 4194304 * low7 g + 536870912 * high7 g + 68719476736 * low7 b + 8796093022208 * high7 b + 1125899906842624 * a + 2 ^ 66 * ones) as -> by (unfold N, solid7; pows; ring).
  rewrite (Z.mul_comm (2 ^ 66)), Z.div_add by (pows; lia). rewrite Z.div_small by (pows; lia). reflexivity.
Qed.
Lemma solid7_index p n : 66 <= p -> bits blk p n = ones / 2 ^ (p - 66) mod 2 ^ n.
Proof.
  intros Hp. rewrite blk_bits. replace (2 ^ p) with (2 ^ 66 * 2 ^ (p - 66)) by (rewrite <- Z.pow_add_r by lia; f_equal; lia).
  rewrite <- Z.div_div by (try (apply Z.pow_pos_nonneg; lia); apply Z.pow_nonzero; lia). rewrite solid7_high. reflexivity.
Qed.
Lemma solid7_weight1 t : 0 <= t < 16 -> weight1 blk t = 21.
Proof.
  intros Ht. unfold weight1. rewrite solid7_mode. set (part := bc7_part blk). apply in_zrange in Ht. change (zrange 0 16) with [0;1;2;3;4;5;6;7;8;9;10;11;12;13;14;15] in Ht.
  repeat (destruct Ht as [<-|Ht]; [match goal with |- znth _ (texel_index _ _ _ _ _ ?t) = _ =>
    let p := eval vm_compute in (o_index 5 + IB 5 * t - if t =? 0 then 0 else 1) in let n := eval vm_compute in (if t =? 0 then 1 else 2) in
    change (texel_index blk 5 part (o_index 5) (IB 5) t) with (bits blk p n) end; rewrite solid7_index by lia; vm_compute; reflexivity|]). destruct Ht.
Qed.
Lemma solid7_weight2 t : 0 <= t < 16 -> weight2 blk t = 0.
Proof.
  intros Ht. unfold weight2. rewrite solid7_mode. set (part := bc7_part blk). change (IB2 5 =? 0) with false. cbn iota. apply in_zrange in Ht. change (zrange 0 16) with [0;1;2;3;4;5;6;7;8;9;10;11;12;13;14;15] in Ht.
  repeat (destruct Ht as [<-|Ht]; [match goal with |- znth _ (texel_index _ _ _ _ _ ?t) = _ =>
    let p := eval vm_compute in (o_index2 5 + IB2 5 * t - if t =? 0 then 0 else 1) in let n := eval vm_compute in (if t =? 0 then 1 else 2) in
    change (texel_index blk 5 part (o_index2 5) (IB2 5) t) with (bits blk p n) end; rewrite solid7_index by lia; vm_compute; reflexivity|]). destruct Ht.
Qed.
Lemma solid7_texel t : 0 <= t < 16 -> bc7_texel blk t = rgba r g b a.
Proof.
  intros Ht. bounds. unfold bc7_texel, bc7_rot. rewrite solid7_mode. change (5 =? 8) with false. cbn iota zeta.
  change (bits blk (o_rot 5) (RB 5)) with (bits blk 6 2). rewrite solid7_rot. change (0 =? 0) with true. cbn iota.
  unfold bc7_channel, color_weight, alpha_weight, bc7_isel. rewrite solid7_mode. cbn zeta.
  assert (bits blk (o_isel 5) (ISB 5) = 0) as I by (change (bits blk (o_isel 5) (ISB 5)) with (le_bytes blk / 2 ^ 8 mod 1); apply Z.mod_1_r). rewrite I. change (0 =? 1) with false. cbn iota.
  rewrite solid7_weight1, solid7_weight2 by exact Ht. change (subset 5 (bc7_part blk) t) with 0.
  unfold channel_endpoint, endpoint.
  change (EPB 5 =? 1) with false. change (SPB 5 =? 1) with false. change (AB 5 =? 0) with false.
  change (0 =? 3) with false. change (1 =? 3) with false. change (2 =? 3) with false. change (3 =? 3) with true. cbn iota zeta.
  change (bits blk (o_color 5 + 0 * (2 * NS 5 * CB 5) + 2 * 0 * CB 5) (CB 5)) with (bits blk 8 7).
  change (bits blk (o_color 5 + 0 * (2 * NS 5 * CB 5) + (2 * 0 + 1) * CB 5) (CB 5)) with (bits blk 15 7).
  change (bits blk (o_color 5 + 1 * (2 * NS 5 * CB 5) + 2 * 0 * CB 5) (CB 5)) with (bits blk 22 7).
  change (bits blk (o_color 5 + 1 * (2 * NS 5 * CB 5) + (2 * 0 + 1) * CB 5) (CB 5)) with (bits blk 29 7).
  change (bits blk (o_color 5 + 2 * (2 * NS 5 * CB 5) + 2 * 0 * CB 5) (CB 5)) with (bits blk 36 7).
  change (bits blk (o_color 5 + 2 * (2 * NS 5 * CB 5) + (2 * 0 + 1) * CB 5) (CB 5)) with (bits blk 43 7).
  change (bits blk (o_alpha 5 + 2 * 0 * AB 5) (AB 5)) with (bits blk 50 8).
  rewrite solid7_r0, solid7_r1, solid7_g0, solid7_g1, solid7_b0, solid7_b1, solid7_a0. change (CB 5) with 7. rewrite R2, G2, B2. f_equal.
  change (AB 5) with 8. unfold lerp64, expand8. change (2 ^ (8 - 8)) with 1. change (2 ^ (2 * 8 - 8)) with 256. rewrite (Z.div_small a 256) by lia.
  match goal with |- (_ * (64 - 0) + ?x * 0 + 32) / 64 = _ => rewrite (Z.mul_0_r x) end. clear - A0. Z.to_euclidean_division_equations; lia.
Qed.
End Solid7.

(** ** ASTC: void extent blocks *)
Definition solid_astc (r g b a : Z) : list Z := [0xfc; 0xfd; 255; 255; 255; 255; 255; 255; r; r; g; g; b; b; a; a].
Section SolidAstc.
Context (r g b a : Z) (Hr : is_byte r) (Hg : is_byte g) (Hb : is_byte b) (Ha : is_byte a).
Let blk := solid_astc r g b a.
Lemma solid_astc_bytes : bytes blk.
Proof. unfold blk, solid_astc. repeat (apply Forall_cons; [assumption || (unfold is_byte; lia)|]). constructor. Qed.
Lemma solid_astc_low : exists X, astc_word blk = 0x1fc + 2 ^ 9 * (0 + 2 ^ 1 * X).
Proof.
  exists (0x3f + 64 * le_bytes (skipn 2 blk)).
  change (astc_word blk) with (0xfc + 256 * (0xfd + 256 * le_bytes (skipn 2 blk))). change (2 ^ 9) with 512. change (2 ^ 1) with 2. lia.
Qed.
Lemma solid_astc_void : void_extent (astc_word blk) = true /\ bfield (astc_word blk) 9 1 = 0.
Proof.
  destruct solid_astc_low as (X & E). unfold void_extent, bfield. rewrite E. split.
  - apply Z.eqb_eq. apply (field_at _ 0 9 0 _ (0 + 2 ^ 1 * X)); try lia.
  - apply (field_at _ 9 1 0x1fc 0 X); lia.
Qed.
Lemma solid_astc_channel c : 0 <= c < 4 -> bfield (astc_word blk) (64 + 16 * c) 16 / 256 = znth [r; g; b; a] c.
Proof.
  intros Hc. unfold bfield, astc_word. change (firstn 16 blk) with blk. replace (64 + 16 * c) with (8 * (8 + 2 * c)) by ring.
  rewrite le_bytes_skip by (apply solid_astc_bytes || lia). unfold is_byte in *.
  assert (c = 0 \/ c = 1 \/ c = 2 \/ c = 3) as [->|[->|[->| ->]]] by lia.
  - change (le_bytes (skipn (Z.to_nat (8 + 2 * 0)) blk)) with (r + 256 * (r + 256 * (g + 256 * (g + 256 * (b + 256 * (b + 256 * (a + 256 * (a + 256 * 0)))))))). change (2 ^ 16) with 65536. change (znth [r; g; b; a] 0) with r. Z.to_euclidean_division_equations; lia.
  - change (le_bytes (skipn (Z.to_nat (8 + 2 * 1)) blk)) with (g + 256 * (g + 256 * (b + 256 * (b + 256 * (a + 256 * (a + 256 * 0)))))). change (2 ^ 16) with 65536. change (znth [r; g; b; a] 1) with g. Z.to_euclidean_division_equations; lia.
  - change (le_bytes (skipn (Z.to_nat (8 + 2 * 2)) blk)) with (b + 256 * (b + 256 * (a + 256 * (a + 256 * 0)))). change (2 ^ 16) with 65536. change (znth [r; g; b; a] 2) with b. Z.to_euclidean_division_equations; lia.
  - change (le_bytes (skipn (Z.to_nat (8 + 2 * 3)) blk)) with (a + 256 * (a + 256 * 0)). change (2 ^ 16) with 65536. change (znth [r; g; b; a] 3) with a. Z.to_euclidean_division_equations; lia.
Qed.
Lemma solid_astc_texel bw bh t : astc_texel_with extend16 bw bh (astc_word blk) t = rgba r g b a.
Proof.
  destruct solid_astc_void as [V F]. unfold astc_texel_with. rewrite V. unfold void_texel. rewrite F. change (0 =? 1) with false. cbn iota zeta.
  rewrite !solid_astc_channel by lia. change (astc_rgba r g b a = rgba r g b a). unfold astc_rgba, rgba. ring.
Qed.
Lemma solid_astc_good : well_formed (astc_word blk).
Proof.
  destruct solid_astc_void as [V F]. split; [|left; exact V]. unfold void_neg_inf. rewrite F. change (0 =? 1) with false. rewrite Bool.andb_false_r. reflexivity.
Qed.
End SolidAstc.

Lemma word_channels v : 0 <= v < 2 ^ 32 -> exists r g b a, is_byte r /\ is_byte g /\ is_byte b /\ is_byte a /\ v = rgba r g b a.
Proof.
  intros Hv. change (2 ^ 32) with 4294967296 in Hv. exists (red v), (green v), (blue v), (alpha v). unfold is_byte, rgba, red, green, blue, alpha. Z.to_euclidean_division_equations; lia.
Qed.
Lemma solid_fits bw bh raw good tex w h pic : 0 < bw -> 0 < bh -> solid_blocks bw bh w h pic ->
  (forall r g b a, is_byte r -> is_byte g -> is_byte b -> is_byte a -> exists blk, bytes blk /\ zlen blk = raw /\ good blk /\ forall t, 0 <= t < bw * bh -> tex blk t = rgba r g b a) ->
  fits bw bh raw good tex w h pic.
Proof.
  intros Hbw Hbh HS HE bx by_ Hx Hy. destruct (HS bx by_ ltac:(lia) ltac:(lia)) as (v & Hv & HP).
  destruct (word_channels v Hv) as (r & g & b & a & R & G & B & A & ->). destruct (HE r g b a R G B A) as (blk & B1 & B2 & B3 & B4).
  exists blk. split; [exact B1|]. split; [exact B2|]. split; [exact B3|]. intros x y Ix Iy Ex Ey.
  pose proof (Z.mod_pos_bound x bw Hbw). pose proof (Z.mod_pos_bound y bh Hbh). pose proof (Z.div_mod x bw ltac:(lia)). pose proof (Z.div_mod y bh ltac:(lia)).
  rewrite B4; [rewrite HP; [reflexivity|subst bx; lia|subst by_; lia|lia|lia]|].
  assert (y mod bh * bw <= (bh - 1) * bw) by (apply Z.mul_le_mono_nonneg_r; lia). assert (0 <= y mod bh * bw) by (apply Z.mul_nonneg_nonneg; lia). lia.
Qed.
