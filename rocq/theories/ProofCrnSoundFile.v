(** * Proofs about what any crunch file whatever unpacks to. *)
From Verif Require Import Base BaseLemmas ModelCrn ModelCrunch SpecCrn SpecCrnHeader SpecCrnFile SpecCrnTexel SpecCrnLevel SpecCrnSound SpecLoops
  ProofCrnHeader ProofHuff ProofCrnIndex ProofCrnGrid ProofCrnLevel ProofLoops ProofCrnFile ProofCrnDecode ProofCrnFaces ProofCrnEnd ProofCrnSound ProofCrnSoundFmt.

Lemma receive_usable m c md c' : receive_model m c = Ok (md, c') -> usable m md.
Proof.
  intros E. unfold receive_model in E. step E. destruct a as [t c1]. step E. destruct a as [n c2]. destruct ((n <? 1) || (MAX_CODELENGTH_CODES <? n)); [discriminate|].
  step E. destruct a as [s c3]. step E. step E. destruct a0 as [s2 c4]. step E. inversion E; subst. right. eauto.
Qed.
Lemma tables_usable m d h first e0 s0 e1 s1 : init_tables m d h = Ok (first, e0, s0, e1, s1) -> usable m s1.
Proof.
  intros E. unfold init_tables in E. step E. step E. step E. destruct a1 as [f c]. destruct (_ && _); [discriminate|].
  step E. destruct a1 as [[x y] c2]. step E. destruct a1 as [x2 y2]. inversion E; subst. clear E E3.
  destruct (negb _); [|inversion E4; left; reflexivity]. step E4. destruct a1 as [x3 c3]. step E4. destruct a1 as [x4 c4]. inversion E4; subst.
  eapply receive_usable; eauto.
Qed.

(** The palettes have the sizes given in the header. *)
Lemma init_palettes m d u : bytes d -> unpacker_init m d (zlen d) = Ok u ->
  palette_sizes d (u_color_endpoints u) (u_color_selectors u) (u_alpha_endpoints u) (u_alpha_selectors u) /\ usable m (u_selector_dm1 u).
Proof.
  intros Hb E. unfold unpacker_init in E. step E. step E. destruct a0 as [[[[first e0] s0] e1] s1].
  step E. destruct a0 as [ce cs]. step E. destruct a0 as [ae al].
  assert (u = mkUnpacker d (zlen d) a first e0 e1 s0 s1 ce cs ae al) as -> by congruence.
  cbn [u_color_endpoints u_color_selectors u_alpha_endpoints u_alpha_selectors u_selector_dm1]. destruct (header_nums d a Hb E0) as (-> & H1 & H2 & H3).
  split; [|eapply tables_usable; eauto]. unfold palette_sizes.
  assert (forall o, 0 <= p_num (palette_at d o) < 65536) as R by (intros o; apply (number_range d (o + 6) 2 Hb); lia).
  pose proof (R 33) as R1. pose proof (R 41) as R2. pose proof (R 49) as R3. pose proof (R 57) as R4.
  change (palette_at d 33) with (h_color_endpoints (header_at d)) in R1. change (palette_at d 41) with (h_color_selectors (header_at d)) in R2.
  change (palette_at d 49) with (h_alpha_endpoints (header_at d)) in R3. change (palette_at d 57) with (h_alpha_selectors (header_at d)) in R4.
  change (number d 39 2) with (p_num (h_color_endpoints (header_at d))). change (number d 47 2) with (p_num (h_color_selectors (header_at d))).
  change (number d 55 2) with (p_num (h_alpha_endpoints (header_at d))). change (number d 63 2) with (p_num (h_alpha_selectors (header_at d))).
  assert (forall a b c d : Prop, (a /\ b) -> (c /\ d) -> a /\ b /\ c /\ d) as Q by tauto. apply Q; clear Q.
  - destruct (Z.eqb_spec (p_num (h_color_endpoints (header_at d))) 0) as [Z0|Z0]; cbn [negb] in E2.
    + inversion E2; subst. rewrite Z0. split; reflexivity.
    + step E2. step E2. inversion E2; subst.
      split; [exact (color_endpoints_len m d _ _ (proj1 R1) E4)|exact (color_selectors_len m d _ _ (proj1 R2) E5)].
  - destruct (Z.eqb_spec (p_num (h_alpha_endpoints (header_at d))) 0) as [Z0|Z0]; cbn [negb] in E3.
    + inversion E3; subst. rewrite Z0. split; reflexivity.
    + step E3. step E3. inversion E3; subst.
      split; [exact (proj1 (alpha_endpoints_len m d _ _ (proj1 R3) E4))|exact (proj1 (alpha_selectors_len m d _ _ (proj1 R4) E5))].
Qed.

Lemma some_palettes d : bytes d -> exists ce cs ae al, palette_sizes d ce cs ae al.
Proof.
  intros Hb. assert (forall n, 0 <= n -> zlen (repeat 0 (Z.to_nat n)) = n) as L by (intros n Hn; unfold zlen; rewrite repeat_length; lia).
  exists (repeat 0 (Z.to_nat (number d 39 2))), (repeat 0 (Z.to_nat (if number d 39 2 =? 0 then 0 else number d 47 2))),
    (repeat 0 (Z.to_nat (number d 55 2))), (repeat 0 (Z.to_nat (if number d 55 2 =? 0 then 0 else 3 * number d 63 2))).
  pose proof (number_range d 39 2 Hb ltac:(lia)). pose proof (number_range d 47 2 Hb ltac:(lia)). pose proof (number_range d 55 2 Hb ltac:(lia)). pose proof (number_range d 63 2 Hb ltac:(lia)).
  unfold palette_sizes. destruct (number d 39 2 =? 0), (number d 55 2 =? 0); rewrite !L by lia; auto.
Qed.

Section Level.
Context (m : build) (d : list Z) (u : unpacker) (level : Z).
Let f := number d 18 1.
Let faces := number d 17 1.
Let W := level_cols (number d 12 2) level.
Let H := level_cols (number d 14 2) level.
Let planes := planes_of f (u_color_endpoints u) (u_color_selectors u) (u_alpha_endpoints u) (u_alpha_selectors u).

Lemma level_2_inv src size out : sound u -> usable m (u_selector_dm1 u) -> u_header u = header_at d -> bytes d -> 0 <= level -> 1 <= faces -> faces = 1 \/ H mod 2 = 0 ->
  level_end m f W H faces < 2 ^ 31 ->
  unpack_level_2 m u src size (W * block_size_of f * H) (W * block_size_of f) level = Ok out ->
  exists P, all_fit planes P W H faces /\ out = chunk_picture planes P W H faces.
Proof.
  intros S Us Eh Hb Hl HF HS HZ.
  assert (alpha_sound m u) as HA.
  { destruct S as (_ & _ & _ & S1 & S2 & S3 & S4). split; [exact S1|]. split; [exact S4|]. split; [exact S2|]. split; [|exact Us].
    destruct S3 as [-> | ->]; [cbn; lia|lia]. }
  pose proof (number_range d 12 2 Hb ltac:(lia)) as Nw. pose proof (number_range d 14 2 Hb ltac:(lia)) as Nh.
  destruct (level_cols_eq (number d 12 2) level ltac:(lia) Hl) as [E1 HW]. destruct (level_cols_eq (number d 14 2) level ltac:(lia) Hl) as [E2 HH].
  pose proof (level_cols_le (number d 12 2) level ltac:(lia) Hl) as HW2. pose proof (level_cols_le (number d 14 2) level ltac:(lia) Hl) as HH2.
  fold W in E1, HW, HW2. fold H in E2, HH, HH2. pose proof (number_range d 17 1 Hb ltac:(lia)) as [_ Nf]. change (256 ^ 1) with 256 in Nf. fold faces in Nf.
  unfold unpack_level_2. rewrite Eh. cbn [h_width h_height h_format h_faces header_at]. rewrite E1, E2. fold f faces.
  change FmtDxt1 with 0. change FmtDxt5a with 9. change FmtDxt5 with 2. change FmtDxt5CcxY with 3. change FmtDxt5XGxR with 4. change FmtDxt5XGbr with 5. change FmtDxt5Agbr with 6. change FmtDxnXy with 7. change FmtDxnYx with 8.
  fold (block_size_of f). set (B := block_size_of f) in *.
  assert (B = 8 \/ B = 16) as HB by (unfold B, block_size_of; destruct ((f =? 0) || (f =? 9)); auto).
  assert ((W * B =? 0) = false) as -> by (apply Z.eqb_neq; nia).
  assert ((W * B <? B * W) = false) as -> by (apply Z.ltb_ge; lia).
  assert (Z.land (W * B) 3 = 0) as ->. { change 3 with (Z.ones 2). rewrite Z.land_ones by lia. change (2 ^ 2) with 4. destruct HB as [->| ->]; dlia. }
  cbn [orb negb Z.eqb bind].
  destruct (level_room m f W H faces ltac:(split; [exact HW|exact HW2]) ltac:(split; [exact HH|exact HH2]) ltac:(split; [exact HF|exact Nf]) HZ) as (RP & RM & RL & RK & RF & RZ & Ht).
  fold B in RP, RM, RL, RK, RF, RZ, Ht.
  rewrite ua_ok by lia. cbn [bind]. rewrite Z.ltb_irrefl. intros E. step E. rename a into c. clear E0. revert E.
  rewrite (shr_div (W + 1) 1), (shr_div (H + 1) 1) by lia. change (2 ^ 1) with 2.
  change ((W + 1) / 2) with (chunk_cols W). change ((H + 1) / 2) with (chunk_rows H).
  set (ret := repeat 0 (Z.to_nat (W * B * H * faces))).
  assert (zlen ret = faces * H * W * B) as Lr. { unfold ret. unfold zlen. rewrite repeat_length, Z2Nat.id by nia. ring. }
  assert (h_faces (u_header u) = faces) as Ef by (rewrite Eh; reflexivity).
  unfold planes, planes_of.
  destruct (Z.eqb_spec f 0) as [F0|F0].
  { assert (B = 8) as EB by (unfold B, block_size_of; rewrite F0; reflexivity). rewrite EB in *. apply unpack_dxt1_inv; auto. }
  specialize (RK F0).
  destruct ((f =? 2) || (f =? 3) || (f =? 5) || (f =? 6) || (f =? 4)) eqn:F5.
  { assert (2 <= f <= 6) as Rf.
    { destruct (Z.eqb_spec f 2), (Z.eqb_spec f 3), (Z.eqb_spec f 5), (Z.eqb_spec f 6), (Z.eqb_spec f 4); cbn [orb] in F5; try discriminate; lia. }
    assert (B = 16) as EB. { unfold B, block_size_of. destruct (Z.eqb_spec f 0); [lia|]. destruct (Z.eqb_spec f 9); [lia|reflexivity]. } rewrite EB in *.
    destruct (Z.leb_spec 2 f); [|lia]. destruct (Z.leb_spec f 6); [|lia]. cbn [andb]. apply unpack_dxt5_inv; auto. }
  assert ((2 <=? f) && (f <=? 6) = false) as ->.
  { destruct (Z.leb_spec 2 f), (Z.leb_spec f 6); try reflexivity. exfalso.
    destruct (Z.eqb_spec f 2), (Z.eqb_spec f 3), (Z.eqb_spec f 5), (Z.eqb_spec f 6), (Z.eqb_spec f 4); cbn [orb] in F5; try discriminate; lia. }
  destruct (Z.eqb_spec f 9) as [F9|F9].
  { assert (B = 8) as EB by (unfold B, block_size_of; rewrite F9; reflexivity). rewrite EB in *. rewrite F9. cbn [Z.eqb Pos.eqb orb]. apply unpack_dxt5a_inv; auto. }
  destruct ((f =? 7) || (f =? 8)) eqn:F7; [|discriminate].
  assert (B = 16) as EB. { unfold B, block_size_of. destruct (Z.eqb_spec f 0); [lia|]. destruct (Z.eqb_spec f 9); [lia|reflexivity]. } rewrite EB in *.
  apply unpack_dxn_inv; auto.
Qed.
End Level.

Lemma level_2_length m u src size n pitch level out : unpack_level_2 m u src size n pitch level = Ok out -> h_faces (u_header u) = 0 -> out = [].
Proof.
  intros E Hf. unfold unpack_level_2 in E. cbv zeta in E. rewrite Hf, Z.mul_0_r in E. change (repeat 0 (Z.to_nat 0)) with (@nil Z) in E. step E. step E. destruct (n <? a0); [discriminate|].
  step E. unfold unpack_dxt1, unpack_dxt5, unpack_dxt5a, unpack_dxn, chunk_loops in E. rewrite Hf in E. unfold for_range in E. change (zrange 0 0) with (@nil Z) in E. cbn [for_list bind] in E.
  repeat match type of E with (if ?b then _ else _) = _ => destruct b; [congruence|] end. discriminate.
Qed.

Lemma crunch_sound m d : bytes d -> exists ce cs ae al, palette_sizes d ce cs ae al /\
  forall level f dxt, 0 <= level -> crunch_unpack_level m d (zlen d) level = Ok (f, dxt) ->
  let W := level_cols (number d 12 2) level in
  let H := level_cols (number d 14 2) level in
  let planes := planes_of f ce cs ae al in
  exists P, all_fit planes P W H (number d 17 1) /\ dxt = chunk_picture planes P W H (number d 17 1).
Proof.
  intros Hb. destruct (crnd_unpack_begin m d (zlen d)) as [u|e|] eqn:Eb.
  2,3: destruct (some_palettes d Hb) as (ce & cs & ae & al & S); exists ce, cs, ae, al; split; [exact S|];
    intros level f dxt Hl E; exfalso; unfold crunch_unpack_level in E; step E; rewrite Eb in E; discriminate.
  assert (unpacker_init m d (zlen d) = Ok u) as Eu.
  { unfold crnd_unpack_begin in Eb. destruct (zlen d <? CRNHEADER_MIN_SIZE); [discriminate|]. destruct (unpacker_init m d (zlen d)); [exact Eb|discriminate|discriminate]. }
  destruct (init_palettes m d u Hb Eu) as [S Us]. destruct (init_sound m d u Hb Eu) as (U1 & U2 & U3 & U4 & U5 & U6 & U7).
  exists (u_color_endpoints u), (u_color_selectors u), (u_alpha_endpoints u), (u_alpha_selectors u). split; [exact S|].
  intros level fr dxt Hl E W H planes. pose proof E as E'. destruct (unpack_facts m d level fr dxt Hb Hl E') as (-> & _ & raw & tex & T & _). clear E'.
  pose proof (number_range d 12 2 Hb ltac:(lia)) as Nw. pose proof (number_range d 14 2 Hb ltac:(lia)) as Nh. pose proof (number_range d 17 1 Hb ltac:(lia)) as Nf.
  destruct (level_cols_eq (number d 12 2) level ltac:(lia) ltac:(lia)) as [E1 HW]. destruct (level_cols_eq (number d 14 2) level ltac:(lia) ltac:(lia)) as [E2 HH].
  pose proof (level_cols_le (number d 12 2) level ltac:(lia) Hl) as HW2. pose proof (level_cols_le (number d 14 2) level ltac:(lia) Hl) as HH2.
  fold W in E1, HW, HW2. fold H in E2, HH, HH2.
  assert (faces_ok : number d 17 1 = 0 \/ 1 <= number d 17 1) by lia.
  assert (1 <= number d 17 1 -> (number d 17 1 = 1 \/ H mod 2 = 0) /\ level_end m (number d 18 1) W H (number d 17 1) < 2 ^ 31) as Side.
  { intros HF. split.
    - destruct (Z.eq_dec (number d 17 1) 1); [left; assumption|right]. pose proof (Z.mod_pos_bound H 2 ltac:(lia)).
      destruct (Z.eq_dec (H mod 2) 1) as [O|]; [|lia]. exfalso. exact (crunch_faces_never m d level _ Hb Hl ltac:(lia) O E).
    - apply Z.nle_gt. intros G. exact (crunch_end_never m d level _ Hb Hl HF G E). }
  unfold crunch_unpack_level in E. step E. apply or_err_inv in E0. destruct (info_inv d a Hb E0) as (-> & L1 & L2 & WF & F15).
  rewrite Eb in E. cbn [bind i_width i_height i_format info_at] in E.
  rewrite (Z.max_comm 1 (Z.shiftr (number d 12 2) level)), (Z.max_comm 1 (Z.shiftr (number d 14 2) level)), E1, E2 in E.
  rewrite !(Z.max_r 1) in E by lia.
  step E. step E. step E. step E. apply ok_inj in E. assert (a2 = dxt) by congruence. subst a2. clear E.
  unfold crnd_unpack_level in E6. destruct ((a1 <? 8) || (CRNMAX_LEVELS <=? level)); [discriminate|]. step E6. destruct a2 as [src sz].
  pose proof (block_size _ _ _ _ E3 T) as Er. subst a. pose proof (size_raw _ _ _ T) as Es.
  assert (raw = 8 \/ raw = 16) as Hr by (rewrite Es; unfold block_size_of; destruct (_ || _); auto).
  rewrite ua_ok in E4 by (destruct Hr; subst raw; lia). apply ok_inj in E4. subst a0.
  destruct faces_ok as [F0|F1].
  - rewrite F0. exists (fun _ _ _ => mkChunk 0 (fun _ _ => 0) (fun _ _ => 0)). split; [intros f x y Hf; lia|].
    apply level_2_length in E6; [|rewrite U3; exact F0]. rewrite E6. reflexivity.
  - destruct (Side F1) as [HS HZ].
    destruct (level_room m (number d 18 1) W H (number d 17 1) ltac:(split; [exact HW|exact HW2]) ltac:(split; [exact HH|exact HH2]) ltac:(split; [exact F1|apply Nf]) HZ) as (_ & _ & _ & _ & _ & _ & Ht).
    rewrite <- Es in Ht. rewrite ua_ok in E5 by lia. apply ok_inj in E5. subst a1. rewrite Es in E6.
    exact (level_2_inv m d u level src sz dxt U7 Us U3 Hb Hl F1 HS HZ E6).
Qed.
