(** * Proofs about pictures with exchanged axes: ETC. *)
From Verif Require Import Base BaseLemmas SpecImage SpecBc SpecEtc ProofEncodeBc ProofChannels ProofFlip SpecTranspose ProofTranspose.

(** ** Words and fields *)
Definition word64 (w : Z) : Prop := 0 <= w < 2 ^ 64.
Lemma word_range b : bytes b -> word64 (etc_word b 0).
Proof.
  intros H. unfold word64, etc_word. change (0 + 1) with 1. change (0 + 2) with 2. change (0 + 3) with 3. change (0 + 4) with 4. change (0 + 5) with 5. change (0 + 6) with 6. change (0 + 7) with 7.
  pose proof (bytes_znth b 0 H). pose proof (bytes_znth b 1 H). pose proof (bytes_znth b 2 H). pose proof (bytes_znth b 3 H). pose proof (bytes_znth b 4 H). pose proof (bytes_znth b 5 H). pose proof (bytes_znth b 6 H). pose proof (bytes_znth b 7 H). lia.
Qed.
Lemma word_bytes_ok w : bytes (word_bytes w) /\ zlen (word_bytes w) = 8.
Proof. split; [|reflexivity]. apply tab_bytes. intros i _. apply Z.mod_pos_bound. lia. Qed.
Lemma word_back w : word64 w -> etc_word (word_bytes w) 0 = w.
Proof.
  intros H. unfold word64 in H. unfold etc_word, word_bytes. rewrite !znth_tab by lia. change (0 + 1) with 1. change (0 + 2) with 2. change (0 + 3) with 3. change (0 + 4) with 4. change (0 + 5) with 5. change (0 + 6) with 6. change (0 + 7) with 7.
  change (256 ^ (7 - 0)) with (2 ^ 56). change (256 ^ (7 - 1)) with (2 ^ 48). change (256 ^ (7 - 2)) with (2 ^ 40). change (256 ^ (7 - 3)) with (2 ^ 32). change (256 ^ (7 - 4)) with (2 ^ 24). change (256 ^ (7 - 5)) with (2 ^ 16). change (256 ^ (7 - 6)) with (2 ^ 8). change (256 ^ (7 - 7)) with 1.
  rewrite Z.div_1_r. Z.to_euclidean_division_equations; lia.
Qed.
Lemma field_bound w a b : 0 <= a - b + 1 -> 0 <= field w a b < 2 ^ (a - b + 1).
Proof. intros. apply Z.mod_pos_bound. apply Z.pow_pos_nonneg; lia. Qed.
(** Fields above [k] depend on the word above [k] only. *)
Lemma field_same k w1 w2 a b : 0 <= k <= b -> w1 / 2 ^ k = w2 / 2 ^ k -> field w1 a b = field w2 a b.
Proof.
  intros Hk E. unfold field. replace b with (k + (b - k)) by lia. rewrite Z.pow_add_r by lia.
  rewrite <- !Z.div_div by (try (apply Z.pow_pos_nonneg; lia); apply Z.pow_nonzero; lia). rewrite E. reflexivity.
Qed.

(** ** The index bits *)
Definition low_bits (w : Z) : list Z := tab 32 (fun p => if p <? 16 then field w (across p) (across p) else field w (16 + across (p - 16)) (16 + across (p - 16))).
Lemma number_same b l : number_of b l = number b l. Proof. induction l; cbn; congruence. Qed.
Lemma bit_range w p : 0 <= field w p p < 2.
Proof. pose proof (field_bound w p p ltac:(lia)) as H. replace (p - p + 1) with 1 in H by ring. exact H. Qed.
Lemma low_bits_ok w : Forall (fun d => 0 <= d < 2) (low_bits w).
Proof.
  apply Forall_forall. intros v Hv. unfold low_bits, tab in Hv. apply in_map_iff in Hv. destruct Hv as (p & <- & _). cbv beta. destruct (p <? 16); apply bit_range.
Qed.
Lemma tr_low_range w : 0 <= tr_low w < 2 ^ 32.
Proof. unfold tr_low. rewrite number_same. exact (number_bound 2 (low_bits w) ltac:(lia) (low_bits_ok w)). Qed.
Lemma tr_low_bit w p : 0 <= p < 32 -> field (tr_low w) p p = znth (low_bits w) p.
Proof.
  intros Hp. unfold field. replace (p - p + 1) with 1 by ring. change (2 ^ 1) with 2. unfold tr_low. rewrite number_same. apply number_digit; [lia|apply low_bits_ok|exact Hp].
Qed.
Lemma mod_field k w p : 0 <= p < k -> field (w mod 2 ^ k) p p = field w p p.
Proof.
  intros Hp. unfold field. replace (p - p + 1) with 1 by ring. change (2 ^ 1) with 2.
  rewrite (Z.div_mod w (2 ^ k)) at 2 by (apply Z.pow_nonzero; lia).
  replace (2 ^ k * (w / 2 ^ k) + w mod 2 ^ k) with (w mod 2 ^ k + (2 ^ (k - p - 1) * (w / 2 ^ k) * 2) * 2 ^ p).
  2:{ replace (2 ^ k) with (2 ^ (k - p - 1) * 2 * 2 ^ p) at 3 by (replace 2 with (2 ^ 1) at 2 by reflexivity; rewrite <- !Z.pow_add_r by lia; f_equal; lia). ring. }
  rewrite Z.div_add by (apply Z.pow_nonzero; lia). rewrite Z.mod_add by lia. reflexivity.
Qed.
Lemma index_moved w w' t : 0 <= t < 16 -> w' mod 2 ^ 32 = tr_low w -> etc_index w' t = etc_index w (across t).
Proof.
  intros Ht E. pose proof (across_range t Ht) as Ha. unfold etc_index. change pixel with across. rewrite (across_twice t Ht).
  rewrite <- (mod_field 32 w' (16 + across t)), <- (mod_field 32 w' (across t)) by lia. rewrite E, !tr_low_bit by lia. unfold low_bits. rewrite !znth_tab by lia.
  rewrite (proj2 (Z.ltb_ge (16 + across t) 16)), (proj2 (Z.ltb_lt (across t) 16)) by lia. replace (16 + across t - 16) with (across t) by ring. rewrite (across_twice t Ht). reflexivity.
Qed.

(** ** Sub-blocks *)
Lemma sub_parts w : word64 w -> word64 (tr_sub w) /\ tr_sub w / 2 ^ 33 = w / 2 ^ 33 /\ field (tr_sub w) 32 32 = 1 - field w 32 32 /\ tr_sub w mod 2 ^ 32 = tr_low w.
Proof.
  intros H. unfold tr_sub. pose proof (tr_low_range w) as L. pose proof (bit_range w 32) as B. set (l := tr_low w) in *. clearbody l.
  assert (field w 63 33 = w / 2 ^ 33) as E. { unfold field. change (63 - 33 + 1) with 31. apply Z.mod_small. unfold word64 in H. Z.to_euclidean_division_equations; lia. }
  rewrite E. set (b := field w 32 32) in *. unfold word64 in *. assert (0 <= w / 2 ^ 33 < 2 ^ 31) as Q by (Z.to_euclidean_division_equations; lia). set (q := w / 2 ^ 33) in *. clearbody q b. clear E.
  split; [lia|]. split; [symmetry; apply (Z.div_unique _ _ _ ((1 - b) * 2 ^ 32 + l)); lia|]. split.
  - unfold field. replace (((q * 2 + (1 - b)) * 2 ^ 32 + l) / 2 ^ 32) with (q * 2 + (1 - b)) by (apply (Z.div_unique _ _ _ l); lia). change (2 ^ (32 - 32 + 1)) with 2. symmetry. apply (Z.mod_unique _ _ q); lia.
  - symmetry. apply (Z.mod_unique _ _ (q * 2 + (1 - b))); lia.
Qed.
Lemma sub_moved w t : word64 w -> 0 <= t < 16 -> etc_sub (tr_sub w) t = etc_sub w (across t).
Proof.
  intros H Ht. destruct (sub_parts w H) as (_ & _ & E & _). unfold etc_sub. rewrite E. destruct (across_parts t Ht) as [-> ->]. pose proof (bit_range w 32).
  destruct (Z.eqb_spec (1 - field w 32 32) 0); destruct (Z.eqb_spec (field w 32 32) 0); try lia; reflexivity.
Qed.
Lemma sub_fields w a b : word64 w -> 33 <= b -> field (tr_sub w) a b = field w a b.
Proof. intros H Hb. apply (field_same 33); [lia|]. apply sub_parts, H. Qed.
Lemma sub_codeword w s : word64 w -> etc_codeword (tr_sub w) s = etc_codeword w s.
Proof. intros H. unfold etc_codeword. rewrite !sub_fields by (exact H || lia). reflexivity. Qed.
Lemma sub_diff w : word64 w -> etc_diff (tr_sub w) = etc_diff w.
Proof. intros H. unfold etc_diff. rewrite sub_fields by (exact H || lia). reflexivity. Qed.
Lemma rgb_same (c c' : Z -> Z) d a : (forall ch, 0 <= ch < 3 -> c ch = c' ch) -> add_rgb c d a = add_rgb c' d a.
Proof. intros H. unfold add_rgb. rewrite (H 0), (H 1), (H 2) by lia. reflexivity. Qed.
(** Fields above bit 40. *)
Lemma upper_same k w w' : 0 <= k <= 40 -> w' / 2 ^ k = w / 2 ^ k ->
  forall ch, 0 <= ch < 3 -> base5 w' ch = base5 w ch /\ delta3 w' ch = delta3 w ch /\ second5 w' ch = second5 w ch /\ overflows w' ch = overflows w ch /\ forall s, indiv_base w' s ch = indiv_base w s ch.
Proof.
  intros Hk E ch Hc. assert (base5 w' ch = base5 w ch) as B by (unfold base5; apply (field_same k); [lia|exact E]).
  assert (delta3 w' ch = delta3 w ch) as D by (unfold delta3; f_equal; apply (field_same k); [lia|exact E]).
  assert (second5 w' ch = second5 w ch) as S by (unfold second5; rewrite B, D; reflexivity).
  split; [exact B|]. split; [exact D|]. split; [exact S|]. split; [unfold overflows; rewrite S; reflexivity|]. intros s. unfold indiv_base.
  rewrite (field_same k w' w (63 - 8 * ch) (60 - 8 * ch)), (field_same k w' w (59 - 8 * ch) (56 - 8 * ch)) by (exact E || lia). reflexivity.
Qed.
Lemma indiv_moved w t : word64 w -> 0 <= t < 16 -> etc_indiv_texel (tr_sub w) t = etc_indiv_texel w (across t).
Proof.
  intros H Ht. destruct (sub_parts w H) as (_ & E & _ & L). unfold etc_indiv_texel. rewrite (index_moved w _ t Ht L), sub_codeword, sub_moved by assumption.
  apply rgb_same. intros ch Hc. destruct (upper_same 33 w (tr_sub w) ltac:(lia) E ch Hc) as (_ & _ & _ & _ & I). apply I.
Qed.
Lemma diff_moved w t : word64 w -> 0 <= t < 16 -> etc_diff_texel (tr_sub w) t = etc_diff_texel w (across t).
Proof.
  intros H Ht. destruct (sub_parts w H) as (_ & E & _ & L). unfold etc_diff_texel. rewrite (index_moved w _ t Ht L), sub_codeword, sub_moved by assumption.
  apply rgb_same. intros ch Hc. destruct (upper_same 33 w (tr_sub w) ltac:(lia) E ch Hc) as (B & _ & S & _). unfold diff_base. rewrite B, S. reflexivity.
Qed.
Lemma tr_etc1_ok : tr_block 8 etc1_wrap_texel tr_etc1.
Proof.
  intros b H Lb. unfold tr_etc1. destruct (word_bytes_ok (tr_sub (etc_word b 0))) as [F1 F2]. split; [exact F1|]. split; [exact F2|]. intros t Ht.
  pose proof (word_range b H) as W. set (w := etc_word b 0) in *. destruct (sub_parts w W) as (W' & E & _ & L). unfold etc1_wrap_texel. rewrite word_back by exact W'. fold w. cbn zeta.
  rewrite sub_diff by exact W. destruct (etc_diff w); [|apply indiv_moved; assumption].
  rewrite (index_moved w _ t Ht L), sub_codeword, sub_moved by assumption. apply rgb_same. intros ch Hc. destruct (upper_same 33 w (tr_sub w) ltac:(lia) E ch Hc) as (B & _ & S & _). unfold wrap_base. rewrite B, S. reflexivity.
Qed.

(** ** T and H blocks *)
Lemma th_parts w : word64 w -> word64 (tr_th w) /\ tr_th w / 2 ^ 32 = w / 2 ^ 32 /\ tr_th w mod 2 ^ 32 = tr_low w.
Proof.
  intros H. unfold tr_th. pose proof (tr_low_range w) as L. set (l := tr_low w) in *. clearbody l.
  assert (field w 63 32 = w / 2 ^ 32) as E. { unfold field. change (63 - 32 + 1) with 32. apply Z.mod_small. unfold word64 in H. Z.to_euclidean_division_equations; lia. }
  rewrite E. unfold word64 in *. assert (0 <= w / 2 ^ 32 < 2 ^ 32) as Q by (Z.to_euclidean_division_equations; lia). set (q := w / 2 ^ 32) in *. clearbody q. clear E.
  split; [lia|]. split; [symmetry; apply (Z.div_unique _ _ _ l); lia|symmetry; apply (Z.mod_unique _ _ q); lia].
Qed.
Lemma th_fields w a b : word64 w -> 32 <= b -> field (tr_th w) a b = field w a b.
Proof. intros H Hb. apply (field_same 32); [lia|]. apply th_parts, H. Qed.
Lemma t_moved w t : word64 w -> 0 <= t < 16 -> t_texel (tr_th w) t = t_texel w (across t).
Proof.
  intros H Ht. destruct (th_parts w H) as (_ & E & L). unfold t_texel. rewrite (index_moved w _ t Ht L). cbn zeta.
  assert (t_distance (tr_th w) = t_distance w) as D by (unfold t_distance; rewrite !th_fields by (exact H || lia); reflexivity).
  assert (forall ch, t_base1 (tr_th w) ch = t_base1 w ch /\ t_base2 (tr_th w) ch = t_base2 w ch) as B by (intros ch; unfold t_base1, t_base2; rewrite !th_fields by (exact H || lia); split; reflexivity).
  rewrite D. destruct (_ =? 0); [apply rgb_same; intros ch _; apply B|]. destruct (_ =? 1); [apply rgb_same; intros ch _; apply B|]. destruct (_ =? 2); apply rgb_same; intros ch _; apply B.
Qed.
Lemma h_moved w t : word64 w -> 0 <= t < 16 -> h_texel (tr_th w) t = h_texel w (across t).
Proof.
  intros H Ht. destruct (th_parts w H) as (_ & E & L). unfold h_texel. rewrite (index_moved w _ t Ht L). cbn zeta.
  assert (forall ch, h_color1 (tr_th w) ch = h_color1 w ch /\ h_color2 (tr_th w) ch = h_color2 w ch) as B by (intros ch; unfold h_color1, h_color2; rewrite !th_fields by (exact H || lia); split; reflexivity).
  assert (h_distance (tr_th w) = h_distance w) as D.
  { unfold h_distance, h_value. rewrite !th_fields by (exact H || lia). rewrite (proj1 (B 0)), (proj1 (B 1)), (proj1 (B 2)), (proj2 (B 0)), (proj2 (B 1)), (proj2 (B 2)). reflexivity. }
  rewrite D. apply rgb_same. intros ch _. destruct (B ch) as [-> ->]. reflexivity.
Qed.

(** ** Planar blocks *)
Lemma planar_parts w : word64 w -> word64 (tr_planar w) /\ tr_planar w / 2 ^ 39 = w / 2 ^ 39 /\ field (tr_planar w) 33 33 = field w 33 33 /\
  (2 * field (tr_planar w) 38 34 + field (tr_planar w) 32 32 = field w 18 13 /\ field (tr_planar w) 31 25 = field w 12 6 /\ field (tr_planar w) 24 19 = field w 5 0) /\
  (field (tr_planar w) 18 13 = 2 * field w 38 34 + field w 32 32 /\ field (tr_planar w) 12 6 = field w 31 25 /\ field (tr_planar w) 5 0 = field w 24 19).
Proof.
  intros H.
  assert (field w 63 39 = w / 2 ^ 39) as E. { unfold field. change (63 - 39 + 1) with 25. apply Z.mod_small. unfold word64 in H. Z.to_euclidean_division_equations; lia. }
  assert (field w 18 13 = 2 * field w 18 14 + field w 13 13) as E2.
  { unfold field. change (18 - 13 + 1) with 6. change (18 - 14 + 1) with 5. change (13 - 13 + 1) with 1. clear. change (2 ^ 14) with (2 ^ 13 * 2). rewrite <- Z.div_div by lia. set (v := w / 2 ^ 13). clearbody v. Z.to_euclidean_division_equations; lia. }
  unfold tr_planar. rewrite E, E2. unfold word64 in *. assert (0 <= w / 2 ^ 39 < 2 ^ 25) as Q by (Z.to_euclidean_division_equations; lia). set (q := w / 2 ^ 39) in *. clearbody q. clear E E2 H.
  pose proof (field_bound w 18 14 ltac:(lia)) as A1. pose proof (field_bound w 33 33 ltac:(lia)) as A2. pose proof (field_bound w 13 13 ltac:(lia)) as A3. pose proof (field_bound w 12 6 ltac:(lia)) as A4. pose proof (field_bound w 5 0 ltac:(lia)) as A5.
  pose proof (field_bound w 38 34 ltac:(lia)) as A6. pose proof (field_bound w 32 32 ltac:(lia)) as A7. pose proof (field_bound w 31 25 ltac:(lia)) as A8. pose proof (field_bound w 24 19 ltac:(lia)) as A9.
  set (a1 := field w 18 14) in *. set (a2 := field w 33 33) in *. set (a3 := field w 13 13) in *. set (a4 := field w 12 6) in *. set (a5 := field w 5 0) in *. set (a6 := field w 38 34) in *. set (a7 := field w 32 32) in *. set (a8 := field w 31 25) in *. set (a9 := field w 24 19) in *.
  clearbody a1 a2 a3 a4 a5 a6 a7 a8 a9. clear w.
  change (2 ^ (18 - 14 + 1)) with 32 in A1. change (2 ^ (33 - 33 + 1)) with 2 in A2. change (2 ^ (13 - 13 + 1)) with 2 in A3. change (2 ^ (12 - 6 + 1)) with 128 in A4. change (2 ^ (5 - 0 + 1)) with 64 in A5.
  change (2 ^ (38 - 34 + 1)) with 32 in A6. change (2 ^ (32 - 32 + 1)) with 2 in A7. change (2 ^ (31 - 25 + 1)) with 128 in A8. change (2 ^ (24 - 19 + 1)) with 64 in A9.
  set (v := q * 2 ^ 39 + a1 * 2 ^ 34 + a2 * 2 ^ 33 + a3 * 2 ^ 32 + a4 * 2 ^ 25 + a5 * 2 ^ 19 + a6 * 2 ^ 14 + a7 * 2 ^ 13 + a8 * 2 ^ 6 + a9).
  assert (v / 2 ^ 39 = q) as V39 by (symmetry; apply (Z.div_unique _ _ _ (a1 * 2 ^ 34 + a2 * 2 ^ 33 + a3 * 2 ^ 32 + a4 * 2 ^ 25 + a5 * 2 ^ 19 + a6 * 2 ^ 14 + a7 * 2 ^ 13 + a8 * 2 ^ 6 + a9)); unfold v; lia).
  assert (v / 2 ^ 34 = q * 32 + a1) as V34 by (symmetry; apply (Z.div_unique _ _ _ (a2 * 2 ^ 33 + a3 * 2 ^ 32 + a4 * 2 ^ 25 + a5 * 2 ^ 19 + a6 * 2 ^ 14 + a7 * 2 ^ 13 + a8 * 2 ^ 6 + a9)); unfold v; lia).
  assert (v / 2 ^ 33 = (q * 32 + a1) * 2 + a2) as V33 by (symmetry; apply (Z.div_unique _ _ _ (a3 * 2 ^ 32 + a4 * 2 ^ 25 + a5 * 2 ^ 19 + a6 * 2 ^ 14 + a7 * 2 ^ 13 + a8 * 2 ^ 6 + a9)); unfold v; lia).
  assert (v / 2 ^ 32 = ((q * 32 + a1) * 2 + a2) * 2 + a3) as V32 by (symmetry; apply (Z.div_unique _ _ _ (a4 * 2 ^ 25 + a5 * 2 ^ 19 + a6 * 2 ^ 14 + a7 * 2 ^ 13 + a8 * 2 ^ 6 + a9)); unfold v; lia).
  assert (v / 2 ^ 25 = (((q * 32 + a1) * 2 + a2) * 2 + a3) * 128 + a4) as V25 by (symmetry; apply (Z.div_unique _ _ _ (a5 * 2 ^ 19 + a6 * 2 ^ 14 + a7 * 2 ^ 13 + a8 * 2 ^ 6 + a9)); unfold v; lia).
  assert (v / 2 ^ 19 = ((((q * 32 + a1) * 2 + a2) * 2 + a3) * 128 + a4) * 64 + a5) as V19 by (symmetry; apply (Z.div_unique _ _ _ (a6 * 2 ^ 14 + a7 * 2 ^ 13 + a8 * 2 ^ 6 + a9)); unfold v; lia).
  assert (v / 2 ^ 13 = (((((q * 32 + a1) * 2 + a2) * 2 + a3) * 128 + a4) * 64 + a5) * 64 + (2 * a6 + a7)) as V13 by (symmetry; apply (Z.div_unique _ _ _ (a8 * 2 ^ 6 + a9)); unfold v; lia).
  assert (v / 2 ^ 6 = ((((((q * 32 + a1) * 2 + a2) * 2 + a3) * 128 + a4) * 64 + a5) * 64 + (2 * a6 + a7)) * 128 + a8) as V6 by (symmetry; apply (Z.div_unique _ _ _ a9); unfold v; lia).
  assert (v / 2 ^ 0 = (((((((q * 32 + a1) * 2 + a2) * 2 + a3) * 128 + a4) * 64 + a5) * 64 + (2 * a6 + a7)) * 128 + a8) * 64 + a9) as V0 by (rewrite Z.div_1_r; unfold v; lia).
  assert (0 <= v < 2 ^ 64) as VR by (unfold v; lia). clearbody v.
  assert (forall x k n, 0 <= k < n -> (x * n + k) mod n = k) as M by (intros; rewrite Z.add_comm, Z.mod_add, Z.mod_small by lia; reflexivity).
  unfold field. rewrite V39, V34, V33, V32, V25, V19, V13, V6, V0.
  change (2 ^ (33 - 33 + 1)) with 2. change (2 ^ (38 - 34 + 1)) with 32. change (2 ^ (32 - 32 + 1)) with 2. change (2 ^ (31 - 25 + 1)) with 128. change (2 ^ (24 - 19 + 1)) with 64. change (2 ^ (18 - 13 + 1)) with 64. change (2 ^ (12 - 6 + 1)) with 128. change (2 ^ (5 - 0 + 1)) with 64.
  rewrite !M by lia. repeat split; lia.
Qed.
Lemma planar_moved w t : word64 w -> 0 <= t < 16 -> planar_texel (tr_planar w) t = planar_texel w (across t).
Proof.
  intros H Ht. destruct (planar_parts w H) as (_ & E & _ & (H1 & H2 & H3) & (V1 & V2 & V3)). unfold planar_texel. destruct (across_parts t Ht) as [-> ->].
  assert (forall ch, planar_horiz (tr_planar w) ch = planar_vert w ch /\ planar_vert (tr_planar w) ch = planar_horiz w ch /\ planar_origin (tr_planar w) ch = planar_origin w ch) as P.
  { intros ch. unfold planar_horiz, planar_vert, planar_origin. rewrite H1, H2, H3, V1, V2, V3. split; [reflexivity|]. split; [reflexivity|]. rewrite !(field_same 39 (tr_planar w) w) by (exact E || lia). reflexivity. }
  assert (forall ch x y, planar_value (tr_planar w) ch x y = planar_value w ch y x) as PV.
  { intros ch x y. unfold planar_value. destruct (P ch) as (-> & -> & ->). f_equal. f_equal. ring. }
  rewrite !PV. reflexivity.
Qed.

(** ** Modes *)
Lemma modes_parts w : word64 w -> word64 (tr_modes w) /\ etc_diff (tr_modes w) = etc_diff w /\ forall ch, 0 <= ch < 3 -> overflows (tr_modes w) ch = overflows w ch.
Proof.
  intros H. unfold tr_modes. destruct (overflows w 0 || overflows w 1); [|destruct (overflows w 2)].
  - destruct (th_parts w H) as (W & E & _). split; [exact W|]. split; [unfold etc_diff; rewrite th_fields by (exact H || lia); reflexivity|]. intros ch Hc. apply (upper_same 32 w (tr_th w) ltac:(lia) E ch Hc).
  - destruct (planar_parts w H) as (W & E & D & _). split; [exact W|]. split; [unfold etc_diff; rewrite D; reflexivity|]. intros ch Hc. apply (upper_same 39 w (tr_planar w) ltac:(lia) E ch Hc).
  - destruct (sub_parts w H) as (W & E & _). split; [exact W|]. split; [apply sub_diff, H|]. intros ch Hc. apply (upper_same 33 w (tr_sub w) ltac:(lia) E ch Hc).
Qed.
Lemma tr_etc2_part b : bytes b -> bytes (tr_etc2 b) /\ zlen (tr_etc2 b) = 8 /\ forall t, 0 <= t < 16 -> etc2_texel (tr_etc2 b) 0 t = etc2_texel b 0 (across t).
Proof.
  intros H. unfold tr_etc2. cbn zeta. pose proof (word_range b H) as W. set (w := etc_word b 0) in *.
  destruct (word_bytes_ok (if etc_diff w then tr_modes w else tr_sub w)) as [F1 F2]. split; [exact F1|]. split; [exact F2|]. intros t Ht. unfold etc2_texel. fold w. cbn zeta.
  destruct (modes_parts w W) as (W1 & D1 & O). destruct (sub_parts w W) as (W2 & _). destruct (etc_diff w) eqn:D.
  - rewrite word_back by exact W1. rewrite D1. cbn [negb]. rewrite !O by lia. unfold tr_modes. destruct (overflows w 0); [apply t_moved; assumption|]. destruct (overflows w 1); [apply h_moved; assumption|].
    cbn [orb]. destruct (overflows w 2); [apply planar_moved; assumption|apply diff_moved; assumption].
  - rewrite word_back by exact W2. rewrite sub_diff, D by exact W. cbn [negb]. apply indiv_moved; assumption.
Qed.
Lemma tr_etc2_ok : tr_block 8 (fun b => etc2_texel b 0) tr_etc2.
Proof. intros b H _. exact (tr_etc2_part b H). Qed.
Lemma tr_etc2a_ok : tr_block 8 etc2a_code_texel tr_etc2a.
Proof.
  intros b H _. unfold tr_etc2a. pose proof (word_range b H) as W. set (w := etc_word b 0) in *.
  destruct (word_bytes_ok (tr_modes w)) as [F1 F2]. split; [exact F1|]. split; [exact F2|]. intros t Ht. unfold etc2a_code_texel. fold w. cbn zeta.
  destruct (modes_parts w W) as (W1 & D1 & O). rewrite word_back by exact W1.
  assert (etc2a_color (tr_modes w) t = etc2a_color w (across t)) as C.
  { unfold etc2a_color. rewrite D1, !O by lia. unfold tr_modes. destruct (overflows w 0); [apply t_moved; assumption|]. destruct (overflows w 1); [apply h_moved; assumption|]. cbn [orb].
    destruct (overflows w 2); [apply planar_moved; assumption|]. destruct (sub_parts w W) as (_ & E & _ & L). rewrite (index_moved w _ t Ht L), sub_codeword, sub_moved by assumption.
    apply rgb_same. intros ch Hc. destruct (upper_same 33 w (tr_sub w) ltac:(lia) E ch Hc) as (B & _ & S & _). unfold diff_base. rewrite B, S. reflexivity. }
  assert (etc2a_clear (tr_modes w) t = etc2a_clear w (across t)) as K.
  { unfold etc2a_clear. rewrite D1, !O by lia. unfold tr_modes. destruct (overflows w 0) eqn:O0; [cbn [orb]; rewrite (index_moved w _ t Ht (proj2 (proj2 (th_parts w W)))); reflexivity|].
    destruct (overflows w 1) eqn:O1; [cbn [orb]; rewrite (index_moved w _ t Ht (proj2 (proj2 (th_parts w W)))); reflexivity|]. cbn [orb].
    destruct (overflows w 2) eqn:O2; [rewrite !andb_false_r; reflexivity|]. rewrite (index_moved w _ t Ht (proj2 (proj2 (proj2 (sub_parts w W))))). reflexivity. }
  rewrite C, K. reflexivity.
Qed.

(** ** Alpha *)
Lemma eac_digit w t : 0 <= t < 16 -> eac_index w t = w / 8 ^ (15 - across t) mod 8.
Proof.
  intros Ht. unfold eac_index, field. change (pixel t) with (across t). pose proof (across_range t Ht). replace (47 - 3 * across t - (45 - 3 * across t) + 1) with 3 by ring. change (2 ^ 3) with 8. f_equal. f_equal.
  change 8 with (2 ^ 3). rewrite <- Z.pow_mul_r by lia. f_equal. ring.
Qed.
Lemma tr_eac_ok b : bytes b -> bytes (tr_eac b) /\ zlen (tr_eac b) = 8 /\ forall t, 0 <= t < 16 -> eac_alpha (tr_eac b) 0 t = eac_alpha b 0 (across t).
Proof.
  intros H. unfold tr_eac. cbn zeta. pose proof (word_range b H) as W. set (w := etc_word b 0) in *.
  set (ds := tab 16 (fun d => eac_index w (15 - d))).
  assert (Forall (fun d => 0 <= d < 8) ds) as F.
  { apply Forall_forall. intros v Hv. unfold ds, tab in Hv. apply in_map_iff in Hv. destruct Hv as (p & <- & _). unfold eac_index, field. replace (47 - 3 * pixel (15 - p) - (45 - 3 * pixel (15 - p)) + 1) with 3 by ring. apply Z.mod_pos_bound. lia. }
  pose proof (number_bound 8 ds ltac:(lia) F) as NB. change (8 ^ zlen ds) with (2 ^ 48) in NB. rewrite number_same.
  pose proof (number_digit 8 ds ltac:(lia) F) as ND. change (zlen ds) with 16 in ND. set (N := number 8 ds) in *. clearbody N.
  assert (field w 63 48 = w / 2 ^ 48) as E. { unfold field. change (63 - 48 + 1) with 16. apply Z.mod_small. unfold word64 in W. clear - W. Z.to_euclidean_division_equations; lia. }
  rewrite E. set (w' := w / 2 ^ 48 * 2 ^ 48 + N).
  assert (word64 w') as W'. { unfold w', word64 in *. clear - W NB. Z.to_euclidean_division_equations; lia. }
  assert (w' / 2 ^ 48 = w / 2 ^ 48) as E' by (unfold w'; rewrite Z.div_add_l, (Z.div_small N) by lia; lia).
  destruct (word_bytes_ok w') as [F1 F2]. split; [exact F1|]. split; [exact F2|]. intros t Ht. unfold eac_alpha. rewrite word_back by exact W'. fold w. cbn zeta.
  pose proof (across_range t Ht) as Ha.
  assert (eac_index w' t = eac_index w (across t)) as I.
  { rewrite eac_digit by exact Ht. unfold w'. set (j := 15 - across t). assert (0 <= j < 16) as Hj by (unfold j; lia).
    replace (w / 2 ^ 48 * 2 ^ 48) with (w / 2 ^ 48 * 8 ^ (15 - j) * 8 * 8 ^ j).
    2:{ transitivity (w / 2 ^ 48 * (8 ^ (15 - j) * 8 ^ 1 * 8 ^ j)); [change (8 ^ 1) with 8; ring|]. rewrite <- !Z.pow_add_r by lia. replace (15 - j + 1 + j) with 16 by ring. reflexivity. }
    rewrite Z.div_add_l by (apply Z.pow_nonzero; lia). rewrite (Z.add_comm (_ * 8)), Z.mod_add by lia. rewrite ND by exact Hj. unfold ds. rewrite znth_tab by lia. unfold j. f_equal. ring. }
  assert (eac_base w' = eac_base w /\ eac_multiplier w' = eac_multiplier w /\ field w' 51 48 = field w 51 48) as (B & M & T).
  { unfold eac_base, eac_multiplier. rewrite !(field_same 48 w' w) by (exact E' || lia). auto. }
  unfold eac_modifier. rewrite I, B, M, T. reflexivity.
Qed.
Lemma etc_word_right c d : zlen c = 8 -> etc_word (c ++ d) 8 = etc_word d 0.
Proof. intros L. unfold etc_word. pose proof (znth_right c d) as R. pose proof (R 0 L ltac:(lia)) as R0. rewrite Z.add_0_r in R0. rewrite R0, !R by (assumption || lia). reflexivity. Qed.
Lemma etc_word_left c d : zlen c = 8 -> etc_word (c ++ d) 0 = etc_word c 0.
Proof. intros L. unfold etc_word. cbn [Z.add Pos.add Pos.succ]. rewrite !znth_left by (assumption || lia). reflexivity. Qed.
Lemma tr_rgba8_ok : tr_block 16 etc2_rgba8_texel (tr_halves tr_eac tr_etc2).
Proof.
  apply tr_halves_block; [intros c Bc; destruct (tr_eac_ok c Bc) as (A1 & A2 & _); auto|intros c Bc _; destruct (tr_etc2_part c Bc) as (A1 & A2 & _); auto|].
  intros c d t Bc Bd Lc Ld Ht. destruct (tr_eac_ok c Bc) as (_ & Le & Ve). destruct (tr_etc2_part d Bd) as (_ & _ & Vd).
  unfold etc2_rgba8_texel.
  assert (forall c d t, zlen c = 8 -> etc2_texel (c ++ d) 8 t = etc2_texel d 0 t /\ eac_alpha (c ++ d) 0 t = eac_alpha c 0 t) as S.
  { intros c0 d0 t0 L0. unfold etc2_texel, eac_alpha. rewrite etc_word_right, etc_word_left by exact L0. auto. }
  destruct (S (tr_eac c) (tr_etc2 d) t Le) as [-> ->]. destruct (S c d (across t) Lc) as [-> ->]. rewrite Ve, Vd by exact Ht. reflexivity.
Qed.
