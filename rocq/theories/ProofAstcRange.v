(** * Every weight that is ever computed lies in 0..64, whatever the block *)
From Verif Require Import Base BaseLemmas BitLemmas FieldLemmas ModelBits ProofDecoder ProofBits ProofPvrInfo ModelAstc SpecAstc ProofAstcSeq ProofAstcParams ProofAstcEnd ProofAstcWeights.

Lemma for_range_keep {S} (P : S -> Prop) lo hi (f : Z -> S -> res S) s s' :
  P s -> (forall i s s', lo <= i < hi -> P s -> f i s = Ok s' -> P s') -> for_range lo hi f s = Ok s' -> P s'.
Proof.
  intros H0 Hs E. destruct (Z.le_gt_cases lo hi) as [L|L].
  - apply (for_range_ok_inv (fun _ => P) lo hi f s s'); auto.
  - unfold for_range in E. assert (zrange lo hi = []) as Z0.
    { unfold zrange. replace (Z.to_nat (hi - lo)) with O by lia. reflexivity. }
    rewrite Z0 in E. cbn in E. injection E as <-. auto.
Qed.
Lemma idx_in {A} (l : list A) i a : idx l i = Ok a -> In a l.
Proof.
  unfold idx. destruct (0 <=? i); [|discriminate]. destruct (nth_error l (Z.to_nat i)) eqn:E; [|discriminate].
  injection 1 as <-. apply nth_error_In in E. auto.
Qed.
Lemma upd_forall {A} (P : A -> Prop) l i v l' : Forall P l -> P v -> upd l i v = Ok l' -> Forall P l'.
Proof.
  unfold upd. destruct (_ && _); [|discriminate]. intros H Hv. injection 1 as <-.
  generalize (Z.to_nat i). induction H as [|a l Ha Hl IH]; intros [|n]; cbn [replace_nth]; constructor; auto.
Qed.
Ltac inv3 H x E := apply bind_ok_inv in H; destruct H as (x & E & H).

(** ** Sequence entries are in range *)
Definition entry_in (b D : Z) (e : Z * Z) : Prop := 0 <= fst e < 2 ^ b /\ 0 <= snd e < D.

Lemma packed_keep m buf offset b count reverse k ibits index offs table D out out' :
  0 <= b <= 5 -> Forall (fun row => Forall (fun t => 0 <= t < D) row) table ->
  Forall (entry_in b D) out -> packed_loop m buf offset b count reverse k ibits index offs table out = Ok out' ->
  Forall (entry_in b D) out'.
Proof.
  intros Hb Ht Ho H. unfold packed_loop in H.
  assert (0 < 2 ^ b <= 2 ^ 5) by (split; [apply Z.pow_pos_nonneg|apply Z.pow_le_mono_r]; lia).
  rewrite (ushl_ok m 64 1 b) in H by lia. cbn [bind] in H.
  rewrite Z.mul_1_l, Z.mod_small in H by lia.
  rewrite ua_ok in H by lia. cbn [bind] in H. cbv zeta in H.
  inv3 H st E. destruct st as [[o n] p]. injection H as <-.
  apply (for_range_keep (fun st => Forall (entry_in b D) (fst (fst st)))) in E; auto.
  clear E o n p out Ho. intros i [[o n] p] [[o' n'] p'] Hi Ho H. cbn [fst] in *.
  inv3 H d E0. inv3 H x E2. inv3 H st E3. destruct st as [o2 n2]. injection H as <- _ _.
  apply (for_range_keep (fun st => Forall (entry_in b D) (fst st))) in E3; auto.
  clear E3 o2 n2 o n Ho. intros j [o n] [o2 n2] Hj Ho H. cbn [fst] in *.
  destruct (n <? count); [|injection H as <- _; auto].
  inv3 H of Ea. inv3 H s Eb. inv3 H row Ec. inv3 H t Ed. inv3 H o3 Ee. injection H as <- _.
  eapply upd_forall; [exact Ho| |exact Ee]. split; cbn [fst snd].
  - rewrite land_mask by lia. apply Z.mod_pos_bound. lia.
  - rewrite Forall_forall in Ht. apply idx_in in Ec. apply Ht in Ec. rewrite Forall_forall in Ec. apply Ec. eapply idx_in; eauto.
Qed.

Lemma tables_in : forallb (fun row => forallb (fun t => (0 <=? t) && (t <? 3)) row) TRITS_TABLE &&
  forallb (fun row => forallb (fun t => (0 <=? t) && (t <? 5)) row) QUINTS_TABLE &&
  forallb (fun t => (0 <=? t) && (t <? 256)) BIT_REVERSE_TABLE = true.
Proof. vm_cast_no_check (eq_refl true). Qed.
Lemma forall_of_forallb D l : forallb (fun t => (0 <=? t) && (t <? D)) l = true -> Forall (fun t => 0 <= t < D) l.
Proof.
  intros H. rewrite forallb_forall in H. apply Forall_forall. intros x Hx. apply H in Hx.
  apply andb_prop in Hx. rewrite Z.leb_le, Z.ltb_lt in Hx. auto.
Qed.
Lemma rows_of_forallb D tb : forallb (fun row => forallb (fun t => (0 <=? t) && (t <? D)) row) tb = true ->
  Forall (fun row => Forall (fun t => 0 <= t < D) row) tb.
Proof.
  intros H. rewrite forallb_forall in H. apply Forall_forall. intros x Hx. apply forall_of_forallb. auto.
Qed.

Lemma intseq_keep m kd buf offset b count out out' : 0 <= b <= 5 ->
  Forall (entry_in b (radix_digits kd)) out ->
  decode_intseq m buf offset (radix_code kd) b count true out = Ok out' -> Forall (entry_in b (radix_digits kd)) out'.
Proof.
  intros Hb Ho H. unfold decode_intseq in H. destruct (count =? 0); [injection H as <-; auto|].
  pose proof tables_in as T. rewrite !andb_true_iff in T. destruct T as [[T1 T2] T3].
  destruct kd; cbn [radix_code radix_digits Z.eqb Pos.eqb] in *.
  - inv3 H st E. destruct st as [o p]. injection H as <-.
    apply (for_range_keep (fun st => Forall (entry_in b 1) (fst st))) in E; auto.
    clear E o p out Ho. intros i [o p] [o' p'] Hi Ho H. cbn [fst] in *.
    inv3 H g Eg. inv3 H v Ev. inv3 H o2 Eo. injection H as <- _.
    eapply upd_forall; [exact Ho| |exact Eo]. split; cbn [fst snd]; [|lia].
    unfold bit_reverse_u8 in Ev. inv3 Ev r Er. assert (u8 b = b) as Eb by (unfold u8; rewrite Z.mod_small; lia). rewrite Eb in Ev.
    rewrite ua_ok in Ev by lia. cbn [bind] in Ev.
    destruct (7 <? 8 - b); [injection Ev as <-; split; [lia|apply Z.pow_pos_nonneg; lia]|].
    assert (v = Z.shiftr r (8 - b)) as -> by congruence. rewrite shr_div by lia.
    apply idx_in in Er. apply forall_of_forallb in T3. rewrite Forall_forall in T3. apply T3 in Er. cbv beta in Er.
    assert (0 < 2 ^ (8 - b)) by (apply Z.pow_pos_nonneg; lia).
    split; [apply Z.div_pos; lia|]. apply Z.div_lt_upper_bound; [lia|]. rewrite <- Z.pow_add_r by lia.
    replace (8 - b + b) with 8 by lia. change (2 ^ 8) with 256. lia.
  - eapply packed_keep; [exact Hb| |exact Ho|exact H]. apply rows_of_forallb; auto.
  - eapply packed_keep; [exact Hb| |exact Ho|exact H]. apply rows_of_forallb; auto.
Qed.

(** ** Unquantized and infilled weights *)
Definition in64 (w : Z) : Prop := 0 <= w <= 64.

Lemma weight_values_in m buf d q wv : weight_quant (bp_weight_range d) = Some q ->
  weight_values m buf d = Ok wv -> Forall in64 wv.
Proof.
  intros Q H. destruct q as [k n]. destruct (weight_quant_in _ _ _ Q) as (R & I & TA & TB & N).
  unfold weight_values in H.
  rewrite (idx_ok WEIGHT_PREC_TABLE_A), TA in H by (change (zlen WEIGHT_PREC_TABLE_A) with 16; lia). cbn [bind] in H.
  rewrite (idx_ok WEIGHT_PREC_TABLE_B), TB in H by (change (zlen WEIGHT_PREC_TABLE_B) with 16; lia). cbn [bind] in H.
  inv3 H sq E. apply intseq_keep in E; auto.
  2:{ apply Forall_forall. intros e He. apply repeat_spec in He. subst e. split; cbn [fst snd]; [split; [lia|apply Z.pow_pos_nonneg; lia]|].
      destruct k; cbn; lia. }
  apply (for_range_keep (Forall in64)) in H; auto.
  - apply Forall_forall. intros e He. apply repeat_spec in He. subst e. unfold in64. lia.
  - clear H. intros i w w' Hi Hw H. inv3 H s Es. inv3 H x Ex.
    apply idx_in in Es. rewrite Forall_forall in E. apply E in Es. destruct Es as [R1 R2].
    destruct (unquant_weight_ok m k n s I R1 R2) as [U1 U2]. rewrite U1 in Ex. injection Ex as <-.
    eapply upd_forall; eauto.
Qed.

Lemma blend_range a b c d fs ft : in64 a -> in64 b -> in64 c -> in64 d -> 0 <= fs < 16 -> 0 <= ft < 16 ->
  let w11 := (fs * ft + 8) / 16 in
  in64 ((a * (16 - fs - ft + w11) + b * (fs - w11) + c * (ft - w11) + d * w11 + 8) / 16).
Proof.
  intros A B C D Hs Ht w11. unfold in64 in *.
  assert (0 <= w11 /\ w11 <= fs /\ w11 <= ft /\ 0 <= 16 - fs - ft + w11) as (W1 & W2 & W3 & W4).
  { assert (0 <= w11) by (apply Z.div_pos; nia). 
    assert (16 * w11 <= fs * ft + 8) by (apply Z.mul_div_le; lia).
    assert (fs * ft + 8 < 16 * w11 + 16) by (pose proof (Z.mul_succ_div_gt (fs * ft + 8) 16 ltac:(lia)) as M; fold w11 in M; lia).
    assert (0 <= fs * (15 - ft)) by (apply Z.mul_nonneg_nonneg; lia).
    assert (0 <= ft * (15 - fs)) by (apply Z.mul_nonneg_nonneg; lia).
    assert (0 <= (15 - ft) * (15 - fs)) by (apply Z.mul_nonneg_nonneg; lia). lia. }
  clearbody w11.
  assert (forall x k, 0 <= x <= 64 -> 0 <= k -> 0 <= x * k <= 64 * k) as P
    by (intros; split; [apply Z.mul_nonneg_nonneg|apply Z.mul_le_mono_nonneg_r]; lia).
  pose proof (P a (16 - fs - ft + w11) A ltac:(lia)). pose proof (P b (fs - w11) B ltac:(lia)).
  pose proof (P c (ft - w11) C ltac:(lia)). pose proof (P d w11 D ltac:(lia)).
  split; [apply Z.div_pos; lia|]. apply Z.lt_succ_r. apply Z.div_lt_upper_bound; lia.
Qed.

Lemma infill_in m bw bh width height dual wv ws : Forall in64 wv ->
  infill_weights m bw bh width height dual wv = Ok ws -> Forall (Forall in64) ws.
Proof.
  intros Hw H. unfold infill_weights in H.
  inv3 H bw1 E1. inv3 H ds E2. inv3 H bh1 E3. inv3 H dt E4. cbv zeta in H. inv3 H st E. destruct st as [o i]. injection H as <-.
  apply (for_range_keep (fun st => Forall (Forall in64) (fst st))) in E; auto.
  - apply Forall_forall. intros e He. cbn [fst] in He. apply repeat_spec in He. subst e. repeat constructor; lia.
  - clear E o i. intros t st st' Ht Hst H.
    apply (for_range_keep (fun st => Forall (Forall in64) (fst st))) in H; auto.
    clear st st' H Hst. intros s [w i] [w' i'] Hs Hst H. cbn [fst] in *.
    inv3 H w1 A1. inv3 H x A2. inv3 H x2 A3. inv3 H x3 A4. inv3 H h1 A5. inv3 H y A6. inv3 H y2 A7. inv3 H y3 A8.
    inv3 H r A9. inv3 H v A10. inv3 H w2 E. injection H as <- _.
    apply (for_range_keep (Forall (Forall in64))) in E; auto.
    clear E w w2 Hst. intros p w w2 Hp Hst H.
    inv3 H p00 B1. inv3 H p01 B2. inv3 H p10 B3. inv3 H p11 B4. inv3 H row B5.
    rewrite Forall_forall in Hw. apply idx_in, Hw in B1. apply idx_in, Hw in B2. apply idx_in, Hw in B3. apply idx_in, Hw in B4.
    rewrite !(shr_div _ 4) in H by lia. change (2 ^ 4) with 16 in H. change 0xf with (2 ^ 4 - 1) in H. rewrite !land_mask in H by lia. change (2 ^ 4) with 16 in H.
    match type of H with context [?a mod 16 * (?b mod 16)] => 
      pose proof (Z.mod_pos_bound a 16 ltac:(lia)) as Rs; pose proof (Z.mod_pos_bound b 16 ltac:(lia)) as Rt;
      set (fs := a mod 16) in *; set (ft := b mod 16) in *; clearbody fs ft end.
    pose proof (blend_range p00 p01 p10 p11 fs ft B1 B2 B3 B4 Rs Rt) as BR. cbv zeta in BR. unfold in64 in B1, B2, B3, B4.
    assert (0 <= (fs * ft + 8) / 16 <= 15) as BW by (apply w11_range; lia).
    pose proof (blend_prod p00 (16 - fs - ft + (fs * ft + 8) / 16) B1 ltac:(lia)).
    pose proof (blend_prod p01 (fs - (fs * ft + 8) / 16) B2 ltac:(lia)).
    pose proof (blend_prod p10 (ft - (fs * ft + 8) / 16) B3 ltac:(lia)).
    pose proof (blend_prod p11 ((fs * ft + 8) / 16) B4 ltac:(lia)).
    do 8 (rewrite ia32 in H by lia; cbn [bind] in H). rewrite (shr_div _ 4) in H by lia. change (2 ^ 4) with 16 in H.
    inv3 H row2 B6.
    eapply upd_forall; [exact Hst| |exact H]. eapply upd_forall; [| |exact B6].
    + rewrite Forall_forall in Hst. apply Hst. eapply idx_in; eauto.
    + exact BR.
Qed.

Lemma decode_weights_in m buf bw bh d q ws : weight_quant (bp_weight_range d) = Some q ->
  decode_weights m buf bw bh d = Ok ws -> Forall (Forall in64) ws.
Proof.
  intros Q H. unfold decode_weights in H. inv3 H wv E. eapply infill_in; [|exact H]. eapply weight_values_in; eauto.
Qed.

Lemma params_range m buf d g : bytes buf -> 16 <= zlen buf -> block_mode (astc_word buf) = Some g ->
  decode_block_params m buf = Ok d ->
  bp_weight_range d = g_range g /\ bp_width d = g_width g /\ bp_height d = g_height g /\ bp_dual_plane d = g_dual g /\
  bp_part_num d = bfield (astc_word buf) 11 2 + 1.
Proof.
  intros Hb Hl HM H. pose proof (block_grid_ok buf Hb Hl) as G. cbv zeta in G. rewrite HM in G. destruct G as (_ & G & _).
  unfold decode_block_params in H. rewrite G in H. cbn [bind] in H.
  inv3 H b1 E1. cbv zeta in H. inv3 H ta E2. inv3 H tb E3. inv3 H st E4. destruct st as [[cb cem] cfg].
  inv3 H st E5. destruct st as [cfg2 plane]. inv3 H r E6. inv3 H rem E7. inv3 H evn E8. injection H as <-. cbn [bp_weight_range bp_width bp_height bp_dual_plane bp_part_num].
  rewrite idx_ok in E1 by lia. assert (b1 = znth buf 1) as -> by congruence.
  repeat split; auto. f_equal. change 3 with (2 ^ 2 - 1) at 2. rewrite land_field by lia.
  rewrite <- (word_byte buf Hb 1 3 2) by lia. reflexivity.
Qed.
