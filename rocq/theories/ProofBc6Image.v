(** * BC6H: comparison with the format, contracts, image decoders *)
From Verif Require Import Base BaseLemmas BitLemmas FieldLemmas ModelColor SpecImage ProofDecoder SpecBits ModelBits ProofBits
  SpecBc ProofBc SpecBptc ModelBptc ProofBcImage ProofBlock SpecF16 ModelF16 ProofF16 ModelBc6 SpecBc6 ProofBc6.

Lemma bc6_block_ok m data outbuf sgn : bytes data -> 16 <= zlen data -> 16 <= zlen outbuf ->
  (m = Wrapping \/ bc6_mode data <> 15) ->
  decode_bc6_block m data outbuf sgn = Ok (tab 16 (code_texel sgn data) ++ skipn 16 outbuf).
Proof. intros Hb Hd Ho Hm. apply bc6_block_gen; auto; intros. apply read_ok; auto; lia. Qed.

Lemma bc6_block_firstn m data outbuf sgn : bytes data -> 16 <= zlen data -> 16 <= zlen outbuf ->
  (m = Wrapping \/ bc6_mode (firstn 16 data) <> 15) ->
  decode_bc6_block m data outbuf sgn = Ok (tab 16 (code_texel sgn (firstn 16 data)) ++ skipn 16 outbuf).
Proof.
  intros Hb Hd Ho Hm. apply bc6_block_gen; auto; intros.
  change 16%nat with (Z.to_nat 16). rewrite bits_firstn by (auto; lia). apply read_ok; auto; lia.
Qed.

Lemma bc6_block_mode15 data outbuf sgn : bytes data -> 16 <= zlen data -> bc6_mode data = 15 ->
  decode_bc6_block Checked data outbuf sgn = Panic.
Proof. intros Hb Hd H. apply (bc6_block_15 Checked data data); auto. intros. apply read_ok; auto; lia. Qed.

(** ** The code's end points against the format's *)
Lemma mod_mod_pow x n : 0 <= n <= 16 -> (x mod 65536) mod 2 ^ n = x mod 2 ^ n.
Proof.
  intros H. symmetry. apply Znumtheory.Zmod_div_mod; [apply Z.pow_pos_nonneg; lia|lia|].
  exists (2 ^ (16 - n)). rewrite <- Z.pow_add_r by lia. change 65536 with (2 ^ 16). f_equal. lia.
Qed.

Lemma cend_end sgn b c e : bc6_valid (bc6_mode b) = true -> 0 <= c < 3 -> 0 <= e -> (bc6_mode b <> 15 \/ e = 0) ->
  cend sgn b c e = bc6_end sgn b c e mod 65536 /\
  (sgn = false -> 0 <= bc6_end false b c e < 2 ^ EB (bc6_mode b)) /\
  (sgn = true -> - 2 ^ (EB (bc6_mode b) - 1) <= bc6_end true b c e < 2 ^ (EB (bc6_mode b) - 1)).
Proof.
  intros V Hc He Hm. destruct (mode_facts6 _ V) as (mi & MF).
  pose proof (mf_EB _ _ MF) as HEB. pose proof (mf_EB12 _ _ MF) as HEB'. pose proof (mf_DB _ _ MF c Hc) as (HD & HD' & HD'').
  pose proof (stored_range b c e V Hc He) as R. pose proof (stored_range b c 0 V Hc ltac:(lia)) as R0.
  unfold cend, cbase, bc6_end, first_end. set (mode := bc6_mode b) in *.
  unfold width6 in *. cbn [Z.eqb] in R0.
  assert (2 ^ EB mode <= 2 ^ 16) as P by (apply Z.pow_le_mono_r; lia). change (2 ^ 16) with 65536 in P.
  assert (2 ^ DB mode c <= 2 ^ EB mode) as P' by (apply Z.pow_le_mono_r; lia).
  assert (0 < 2 ^ EB mode) as P'' by (apply Z.pow_pos_nonneg; lia).
  assert (forall n v, 1 <= n <= 16 -> 0 <= v < 2 ^ n -> se n v = sext n v mod 65536 /\
     - 2 ^ (n - 1) <= sext n v < 2 ^ (n - 1)) as S.
  { intros n v Hn Hv. destruct (se_range n v Hn Hv) as (A & B & C). rewrite (Z.mod_small (se n v)) in C by lia.
    split; [auto|]. unfold sext.
    assert (2 ^ n = 2 * 2 ^ (n - 1)) by (rewrite <- Z.pow_succ_r by lia; f_equal; lia).
    destruct (Z.ltb_spec v (2 ^ (n - 1))); lia. }
  destruct (Z.eqb_spec e 0) as [->|Ne].
  - destruct sgn.
    + destruct (S (EB mode) _ HEB R0) as (S1 & S2). split; [auto|]. split; [discriminate|auto].
    + rewrite Z.mod_small by lia. split; [auto|]. split; [auto|discriminate].
  - destruct Hm as [Hm|]; [|lia].
    destruct (Z.eqb_spec mode 15); [contradiction|].
    destruct (is_delta mode) eqn:ED; cbv zeta.
    + destruct (S (DB mode c) _ ltac:(lia) R) as (S1 & S2). rewrite S1. rewrite mod_mod_pow by lia.
      rewrite <- (mod_mod_pow ((if sgn then _ else _) + sext _ _ mod 65536)) by lia.
      rewrite Zplus_mod_idemp_r.
      destruct sgn.
      * destruct (S (EB mode) _ HEB R0) as (S3 & S4). rewrite S3. rewrite Zplus_mod_idemp_l. rewrite mod_mod_pow by lia.
        set (x := _ mod 2 ^ EB mode). assert (0 <= x < 2 ^ EB mode) as Bx by (apply Z.mod_pos_bound; lia).
        destruct (S (EB mode) x HEB Bx) as (S5 & S6). split; [auto|]. split; [discriminate|auto].
      * rewrite mod_mod_pow by lia.
        set (x := _ mod 2 ^ EB mode). assert (0 <= x < 2 ^ EB mode) as Bx by (apply Z.mod_pos_bound; lia).
        rewrite (Z.mod_small x) by lia. split; [auto|]. split; [auto|discriminate].
    + destruct HD'' as [|HD'']; [discriminate|]. rewrite HD'' in *.
      destruct sgn.
      * destruct (S (EB mode) _ HEB R) as (S1 & S2). split; [auto|]. split; [discriminate|auto].
      * rewrite Z.mod_small by lia. split; [auto|]. split; [auto|discriminate].
Qed.

Lemma subset6_facts b t : bc6_valid (bc6_mode b) = true -> 0 <= t < 16 ->
  0 <= subset6 b t < subsets6 (bc6_mode b) /\ (bc6_mode b = 15 -> subset6 b t = 0).
Proof.
  intros V Ht. destruct (mode_facts6 _ V) as (mi & MF).
  destruct (check6_facts Checked (two6 (bc6_mode b)) (part6 b) t (part6_range b) Ht) as (_ & C3 & _).
  change (sub' (two6 (bc6_mode b)) (part6 b) t) with (subset6 b t) in C3.
  destruct (mf_sub _ _ MF) as [[E1 E2]|[E1 E2]]; rewrite E1 in C3; rewrite E2; (split; [lia|]); intros H.
  - destruct (mf_15 _ _ MF H) as (_ & _ & X). congruence.
  - lia.
Qed.

Lemma ends_unsigned b c e : bc6_valid (bc6_mode b) = true -> 0 <= c < 3 -> 0 <= e -> (bc6_mode b = 15 -> e < 2) ->
  unq_code false (EB (bc6_mode b)) (cend false b c e) =
  if (bc6_mode b =? 15) && (e =? 1) then 0 else unq_unsigned_code (EB (bc6_mode b)) (bc6_end false b c e).
Proof.
  intros V Hc He H15. destruct (mode_facts6 _ V) as (mi & MF).
  destruct (Z.eqb_spec (bc6_mode b) 15) as [E|E], (Z.eqb_spec e 1) as [E'|E']; cbn [andb].
  - destruct (mf_15 _ _ MF E) as (E1 & E2 & E3). unfold cend. rewrite E1, E2, E'. rewrite E. reflexivity.
  - destruct (cend_end false b c e V Hc He) as (-> & A & _); [right; specialize (H15 E); lia|].
    specialize (A eq_refl). pose proof (mf_EB _ _ MF).
    assert (2 ^ EB (bc6_mode b) <= 2 ^ 16) by (apply Z.pow_le_mono_r; lia). change (2 ^ 16) with 65536 in *.
    rewrite Z.mod_small by lia. reflexivity.
  - destruct (cend_end false b c e V Hc He) as (-> & A & _); [auto|].
    specialize (A eq_refl). pose proof (mf_EB _ _ MF).
    assert (2 ^ EB (bc6_mode b) <= 2 ^ 16) by (apply Z.pow_le_mono_r; lia). change (2 ^ 16) with 65536 in *.
    rewrite Z.mod_small by lia. reflexivity.
  - destruct (cend_end false b c e V Hc He) as (-> & A & _); [auto|].
    specialize (A eq_refl). pose proof (mf_EB _ _ MF).
    assert (2 ^ EB (bc6_mode b) <= 2 ^ 16) by (apply Z.pow_le_mono_r; lia). change (2 ^ 16) with 65536 in *.
    rewrite Z.mod_small by lia. reflexivity.
Qed.

Lemma code_unsigned b t : 0 <= t < 16 -> code_texel false b t = bc6u_code_texel b t.
Proof.
  intros Ht. unfold code_texel, bc6u_code_texel, bc6_texel_of. destruct (bc6_valid (bc6_mode b)) eqn:V; [|auto].
  destruct (subset6_facts b t V Ht) as (S1 & S2).
  assert (forall c, 0 <= c < 3 -> code_half false b c t = bc6_half false b (fun c e =>
    if (bc6_mode b =? 15) && (e =? 1) then 0
    else unq_unsigned_code (EB (bc6_mode b)) (bc6_end false b c e)) c t) as H.
  { intros c Hc. unfold code_half, bc6_half. rewrite !ends_unsigned by (auto; try lia; intros E; specialize (S2 E); lia). reflexivity. }
  rewrite !H by lia. reflexivity.
Qed.

Lemma clean_unsigned b t : 0 <= t < 16 -> bc6u_clean b -> bc6u_code_texel b t = bc6u_texel b t.
Proof.
  intros Ht (H15 & Hcl). unfold bc6u_code_texel, bc6u_texel, bc6_texel_of. destruct (bc6_valid (bc6_mode b)) eqn:V; [|auto].
  destruct (subset6_facts b t V Ht) as (S1 & _).
  assert (forall c e, 0 <= c < 3 -> 0 <= e < 2 * subsets6 (bc6_mode b) ->
     (if (bc6_mode b =? 15) && (e =? 1) then 0 else unq_unsigned_code (EB (bc6_mode b)) (bc6_end false b c e)) =
     unq_unsigned (EB (bc6_mode b)) (bc6_end false b c e)) as HE.
  { intros c e Hc He. destruct (Z.eqb_spec (bc6_mode b) 15); [contradiction|]. cbn [andb].
    destruct (Hcl c e Hc He) as (N1 & N2). unfold unq_unsigned_code, unq_unsigned.
    destruct (15 <=? _); [auto|]. destruct (_ =? 0); [auto|].
    destruct (Z.eqb_spec (bc6_end false b c e) (2 ^ (EB (bc6_mode b) - 1))); [contradiction|].
    destruct (Z.eqb_spec (bc6_end false b c e) (2 ^ EB (bc6_mode b) - 1)); [contradiction|]. auto. }
  cbv zeta. unfold bc6_half. rewrite !HE by lia. reflexivity.
Qed.

Lemma ends_signed b c e : bc6_valid (bc6_mode b) = true -> 0 <= c < 3 -> 0 <= e -> (bc6_mode b = 15 -> e < 2) ->
  unq_code true (EB (bc6_mode b)) (cend true b c e) =
  if (bc6_mode b =? 15) && (e =? 1) then 0 else unq_signed_code (EB (bc6_mode b)) (bc6_end true b c e).
Proof.
  intros V Hc He H15. destruct (mode_facts6 _ V) as (mi & MF).
  assert (bc6_mode b <> 15 \/ e = 0 -> unq_code true (EB (bc6_mode b)) (cend true b c e) =
    unq_signed_code (EB (bc6_mode b)) (bc6_end true b c e)) as G.
  { intros Hm. destruct (cend_end true b c e V Hc He Hm) as (-> & _ & A). specialize (A eq_refl).
    pose proof (mf_EB _ _ MF) as HEB.
    assert (EB (bc6_mode b) <= 12 \/ EB (bc6_mode b) = 16) as HEB'
      by (destruct (mf_EB12 _ _ MF) as [|X]; [auto|right; apply (mf_15 _ _ MF X)]).
    clear MF H15. unfold unq_code, unq_signed_code, unq_signed.
    generalize dependent (bc6_end true b c e). generalize dependent (EB (bc6_mode b)). intros eb HEB HEB' v A.
    destruct (Z.leb_spec 16 eb); [auto|].
    destruct HEB' as [HEB'|HEB']; [|lia].
    assert (2 ^ (eb - 1) <= 2 ^ 11) by (apply Z.pow_le_mono_r; lia). change (2 ^ 11) with 2048 in *.
    destruct (Z.ltb_spec v 0).
    - replace (v mod 65536) with (v + 65536) by (apply (Z.mod_unique v 65536 (-1)); lia).
      replace ((v + 65536) mod 32768) with (v + 32768) by (apply (Z.mod_unique (v + 65536) 32768 1); lia).
      cbv zeta. destruct (Z.eqb_spec (v + 32768) 0); [lia|]. destruct (Z.leb_spec (2 ^ (eb - 1) - 1) (v + 32768)); [|lia].
      destruct (Z.ltb_spec (v + 65536) 32768); [lia|]. reflexivity.
    - rewrite (Z.mod_small v 65536), (Z.mod_small v 32768) by lia. rewrite Z.abs_eq by lia. cbv zeta.
      destruct (Z.ltb_spec v 32768); [|lia]. reflexivity. }
  destruct (Z.eqb_spec (bc6_mode b) 15) as [E|E], (Z.eqb_spec e 1) as [E'|E']; cbn [andb]; try (apply G; auto; right; specialize (H15 E); lia).
  destruct (mf_15 _ _ MF E) as (E1 & E2 & E3). unfold cend. rewrite E1, E2, E'. rewrite E. reflexivity.
Qed.

Lemma code_signed b t : 0 <= t < 16 -> code_texel true b t = bc6s_code_texel b t.
Proof.
  intros Ht. unfold code_texel, bc6s_code_texel. destruct (bc6_valid (bc6_mode b)) eqn:V; [|auto].
  destruct (subset6_facts b t V Ht) as (S1 & S2).
  assert (forall c, 0 <= c < 3 -> code_half true b c t = bc6s_code_half b c t) as H.
  { intros c Hc. unfold code_half, bc6s_code_half. rewrite !ends_signed by (auto; try lia; intros E; specialize (S2 E); lia). reflexivity. }
  rewrite !H by lia. reflexivity.
Qed.

Lemma bc6_half_signed_nonneg eb v : 1 <= eb <= 12 -> 0 <= v < 2 ^ (eb - 1) ->
  0 <= unq_signed eb v < 32768.
Proof.
  intros He Hv. unfold unq_signed. destruct (Z.leb_spec 16 eb); [lia|]. rewrite Z.abs_eq by lia. cbv zeta.
  destruct (Z.ltb_spec v 0); [lia|]. destruct (Z.eqb_spec v 0); [lia|]. destruct (Z.leb_spec (2 ^ (eb - 1) - 1) v); [lia|].
  assert (0 < 2 ^ (eb - 1)) by (apply Z.pow_pos_nonneg; lia).
  split; [apply Z.div_pos; lia|]. apply Z.div_lt_upper_bound; [lia|].
  change (2 ^ 15) with 32768. change (2 ^ 14) with 16384. lia.
Qed.

Lemma clean_signed b t : 0 <= t < 16 -> bc6s_clean b -> bc6s_code_texel b t = bc6s_texel b t.
Proof.
  intros Ht (H15 & Hcl). unfold bc6s_code_texel, bc6s_texel, bc6_texel_of. destruct (bc6_valid (bc6_mode b)) eqn:V; [|auto].
  destruct (mode_facts6 _ V) as (mi & MF).
  destruct (subset6_facts b t V Ht) as (S1 & _).
  assert (1 <= EB (bc6_mode b) <= 12) as HEB.
  { pose proof (mf_EB _ _ MF). destruct (mf_EB12 _ _ MF); [lia|contradiction]. }
  assert (forall c e, 0 <= c < 3 -> 0 <= e < 2 * subsets6 (bc6_mode b) ->
     (if (bc6_mode b =? 15) && (e =? 1) then 0 else unq_signed_code (EB (bc6_mode b)) (bc6_end true b c e)) =
     unq_signed (EB (bc6_mode b)) (bc6_end true b c e) /\ 0 <= unq_signed (EB (bc6_mode b)) (bc6_end true b c e) < 32768) as HE.
  { intros c e Hc He. destruct (Z.eqb_spec (bc6_mode b) 15); [contradiction|]. cbn [andb].
    destruct (cend_end true b c e V Hc ltac:(lia)) as (_ & _ & A); [auto|]. specialize (A eq_refl).
    pose proof (Hcl c e Hc He) as N. split; [|apply bc6_half_signed_nonneg; lia].
    unfold unq_signed_code. destruct (Z.leb_spec 16 (EB (bc6_mode b))); [lia|].
    destruct (Z.ltb_spec (bc6_end true b c e) 0); [lia|]. auto. }
  assert (0 <= weight6 b t <= 64) as HW.
  { unfold weight6. destruct (_ =? 2).
    - assert (forallb (fun w => (0 <=? w) && (w <=? 64)) (weights 3) = true) as W by reflexivity.
      generalize (index6 b t). intros i. unfold znth. destruct (nth_in_or_default (Z.to_nat i) (weights 3) 0) as [I|I].
      + rewrite forallb_forall in W. specialize (W _ I). lia.
      + rewrite I. lia.
    - assert (forallb (fun w => (0 <=? w) && (w <=? 64)) (weights 4) = true) as W by reflexivity.
      generalize (index6 b t). intros i. unfold znth. destruct (nth_in_or_default (Z.to_nat i) (weights 4) 0) as [I|I].
      + rewrite forallb_forall in W. specialize (W _ I). lia.
      + rewrite I. lia. }
  assert (forall c, 0 <= c < 3 -> bc6s_code_half b c t =
    bc6_half true b (fun c e => unq_signed (EB (bc6_mode b)) (bc6_end true b c e)) c t) as H.
  { intros c Hc. unfold bc6s_code_half, bc6_half. cbv zeta.
    destruct (HE c (2 * subset6 b t) Hc ltac:(lia)) as (-> & B0). destruct (HE c (2 * subset6 b t + 1) Hc ltac:(lia)) as (-> & B1).
    set (x := unq_signed (EB (bc6_mode b)) (bc6_end true b c (2 * subset6 b t))) in *. set (y := unq_signed (EB (bc6_mode b)) (bc6_end true b c (2 * subset6 b t + 1))) in *. clearbody x y. set (w := weight6 b t) in *. clearbody w.
    assert (0 <= lerp64 x y w < 32768) as BL.
    { unfold lerp64.
      assert (0 <= x * (64 - w) <= 32767 * (64 - w)) by (split; [apply Z.mul_nonneg_nonneg|apply Z.mul_le_mono_nonneg_r]; lia).
      assert (0 <= y * w <= 32767 * w) by (split; [apply Z.mul_nonneg_nonneg|apply Z.mul_le_mono_nonneg_r]; lia).
      generalize dependent (x * (64 - w)). generalize dependent (y * w). intros. clear - HW H H0. dlia. }
    unfold finish_signed_code, finish_signed. destruct (Z.ltb_spec (lerp64 x y w) 0); [lia|].
    rewrite Z.mod_small, (Z.div_small _ 32768) by lia. lia. }
  cbv zeta. rewrite !H by lia. reflexivity.
Qed.

(** ** Contracts *)
Lemma bc6_code_contract (sgn : bool) : block_exact 16 (if sgn then bc6s_code_texel else bc6u_code_texel)
    (fun data outbuf => decode_bc6_block Wrapping data outbuf sgn) /\
  block_confined 16 (fun data outbuf => decode_bc6_block Wrapping data outbuf sgn).
Proof.
  apply exact_of_form. intros data outbuf Hb Hd Ho _. rewrite bc6_block_ok by auto. apply (f_equal Ok). f_equal.
  apply tab_ext. intros t Ht. destruct sgn; [apply code_signed|apply code_unsigned]; auto.
Qed.

Lemma bc6_impl (sgn : bool) : implements 16 16 (fun data outbuf => decode_bc6_block Wrapping data outbuf sgn) (fun l => zlen l = 16)
  (if sgn then bc6s_code_texel else bc6u_code_texel).
Proof.
  split; [reflexivity|]. intros data buf Hb Hd Hl.
  eexists; split; [apply bc6_block_firstn; auto; lia|].
  assert (zlen (tab 16 (code_texel sgn (firstn 16 data)) ++ skipn 16 buf) = 16) as L
    by (change 16%nat with (Z.to_nat 16); rewrite zlen_tab_app; lia).
  split; [auto|]. split; [auto|]. intros t Ht. change 16%nat with (Z.to_nat 16).
  rewrite znth_tab_app by auto. destruct sgn; [apply code_signed|apply code_unsigned]; auto.
Qed.

Lemma bc6_image (sgn : bool) : image_decoder 4 4 16 (if sgn then bc6s_code_texel else bc6u_code_texel)
  (fun data w h image => decode_bc6 Wrapping data w h image sgn).
Proof.
  destruct sgn.
  - exact (bcn_image Wrapping 16 16 _ _ _ (bc6_impl true) eq_refl ltac:(lia)).
  - exact (bcn_image Wrapping 16 16 _ _ _ (bc6_impl false) eq_refl ltac:(lia)).
Qed.

(** Blocks, any build. *)
Lemma bc6_total m data outbuf sgn : bytes data -> 16 <= zlen data -> 16 <= zlen outbuf ->
  (m = Wrapping \/ bc6_mode data <> 15) ->
  exists out, decode_bc6_block m data outbuf sgn = Ok out /\ zlen out = zlen outbuf /\
    (forall t, 16 <= t < zlen outbuf -> znth out t = znth outbuf t) /\
    (bc6_valid (bc6_mode data) = false -> forall t, 0 <= t < 16 -> znth out t = 0).
Proof.
  intros Hb Hd Ho Hm. eexists. split; [apply bc6_block_ok; auto|]. change 16%nat with (Z.to_nat 16).
  split; [apply zlen_tab_app; lia|]. split.
  - intros t Ht. rewrite znth_app2 by (rewrite zlen_tab; lia). rewrite zlen_tab by lia. rewrite znth_skipn by lia. f_equal. lia.
  - intros V t Ht. rewrite znth_tab_app by auto. unfold code_texel. rewrite V. reflexivity.
Qed.

Lemma bc6u_code_block m data outbuf : bytes data -> 16 <= zlen data -> 16 <= zlen outbuf ->
  (m = Wrapping \/ bc6_mode data <> 15) ->
  exists out, decode_bc6_block_unsigned m data outbuf = Ok out /\
    forall t, 0 <= t < 16 -> znth out t = bc6u_code_texel data t.
Proof.
  intros Hb Hd Ho Hm. eexists. split; [apply bc6_block_ok; auto|]. intros t Ht. change 16%nat with (Z.to_nat 16).
  rewrite znth_tab_app by auto. apply code_unsigned; auto.
Qed.
Lemma bc6u_clean_block m data outbuf : bytes data -> 16 <= zlen data -> 16 <= zlen outbuf -> bc6u_clean data ->
  exists out, decode_bc6_block_unsigned m data outbuf = Ok out /\
    forall t, 0 <= t < 16 -> znth out t = bc6u_texel data t.
Proof.
  intros Hb Hd Ho Hc. destruct (bc6u_code_block m data outbuf Hb Hd Ho) as (out & E & H); [right; apply Hc|].
  exists out. split; [auto|]. intros t Ht. rewrite H by auto. apply clean_unsigned; auto.
Qed.
Lemma bc6s_code_block m data outbuf : bytes data -> 16 <= zlen data -> 16 <= zlen outbuf ->
  (m = Wrapping \/ bc6_mode data <> 15) ->
  exists out, decode_bc6_block_signed m data outbuf = Ok out /\
    forall t, 0 <= t < 16 -> znth out t = bc6s_code_texel data t.
Proof.
  intros Hb Hd Ho Hm. eexists. split; [apply bc6_block_ok; auto|]. intros t Ht. change 16%nat with (Z.to_nat 16).
  rewrite znth_tab_app by auto. apply code_signed; auto.
Qed.
Lemma bc6s_clean_block m data outbuf : bytes data -> 16 <= zlen data -> 16 <= zlen outbuf -> bc6s_clean data ->
  exists out, decode_bc6_block_signed m data outbuf = Ok out /\
    forall t, 0 <= t < 16 -> znth out t = bc6s_texel data t.
Proof.
  intros Hb Hd Ho Hc. destruct (bc6s_code_block m data outbuf Hb Hd Ho) as (out & E & H); [right; apply Hc|].
  exists out. split; [auto|]. intros t Ht. rewrite H by auto. apply clean_signed; auto.
Qed.
