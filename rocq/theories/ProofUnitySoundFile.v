(** * Proofs about what any Unity crunch file whatever unpacks to: palettes, files. *)
From Verif Require Import Base BaseLemmas ModelCrn ModelCrunch ModelUnity SpecCrn SpecCrnHeader SpecCrnFile SpecCrnTexel SpecCrnLevel SpecCrnSound SpecUnity SpecUnityFile SpecUnitySound
  ProofCrnHeader ProofHuff ProofCrnIndex ProofCrnGrid ProofCrnLevel ProofAstcRange ProofLoops ProofCrnFile ProofCrnDecode ProofCrnFaces ProofUnityFile ProofCrnSound ProofCrnSoundFmt ProofUnitySound.

(** ** The palettes *)
Lemma masked_five a : five_bits (Z.land a 0x1F1F1F1F).
Proof.
  split.
  - assert (Z.land a 0x1F1F1F1F = Z.land (Z.land a 0x1F1F1F1F) (Z.ones 32)) as -> by (rewrite <- Z.land_assoc; reflexivity).
    rewrite Z.land_ones by lia. apply Z.mod_pos_bound. lia.
  - intros c Hc. unfold color_byte. change 256 with (2 ^ 8) at 1. rewrite <- Z.pow_mul_r by lia. rewrite <- Z.shiftr_div_pow2 by lia.
    change 256 with (2 ^ 8). rewrite <- (Z.land_ones _ 8) by lia. rewrite Z.shiftr_land, <- Z.land_assoc.
    assert (Z.land (Z.shiftr 0x1F1F1F1F (8 * c)) (Z.ones 8) = Z.ones 5) as ->.
    { assert (c = 0 \/ c = 1 \/ c = 2 \/ c = 3) as [->|[->|[->| ->]]] by lia; reflexivity. }
    rewrite Z.land_ones by lia. apply Z.mod_pos_bound. lia.
Qed.
Lemma subblocks_halves f : has_subblocks f = has_halves f.
Proof.
  unfold has_subblocks, has_halves. change FmtEtc1 with 10. change FmtEtc2 with 11. change FmtEtc2a with 12.
  destruct (Z.eqb_spec f 10), (Z.eqb_spec f 11), (Z.eqb_spec f 12), (Z.leb_spec 10 f), (Z.leb_spec f 12); cbn [orb andb]; try reflexivity; lia.
Qed.
Lemma halves_etc f : has_halves f = true -> has_etc_color_blocks f = true.
Proof.
  rewrite <- subblocks_halves. unfold has_subblocks, has_etc_color_blocks. destruct (f =? FmtEtc1), (f =? FmtEtc2), (f =? FmtEtc2a); cbn [orb]; auto; discriminate.
Qed.

Lemma u_color_endpoints_len m d h pal : 0 <= p_num (h_color_endpoints h) -> unity_color_endpoints m d h = Ok pal ->
  zlen pal = p_num (h_color_endpoints h) /\ (has_halves (h_format h) = true -> Forall five_bits pal).
Proof.
  intros Hn E. unfold unity_color_endpoints in E. cbv zeta in E. step E. step E. step E. destruct a1 as [dm0 c1].
  destruct (has_etc_color_blocks (h_format h)) eqn:Et.
  - step E. destruct a1 as [[v p] cd]. apply ok_inj in E. subst p. rewrite subblocks_halves in E3.
    enough (let '(_, pal, _) := (v, pal, cd) in zlen pal = p_num (h_color_endpoints h) /\ (has_halves (h_format h) = true -> Forall five_bits pal)) as K by exact K.
    revert E3. apply (for_range_ok_inv (fun i (st : Z * list Z * codec) => let '(_, pal, _) := st in zlen pal = i /\ (has_halves (h_format h) = true -> Forall five_bits pal))); [lia|split; [reflexivity|constructor]|].
    intros i [[v' p'] c'] st' Hi [L V] S. unfold unity_etc_endpoint_step in S. step S. destruct a1 as [x y]. apply ok_inj in S. subst st'.
    split; [rewrite zlen_app, L; reflexivity|]. intros Hh. rewrite Hh. apply Forall_app. split; [auto|]. constructor; [apply masked_five|constructor].
  - step E. destruct a1 as [dm1 c2]. step E. destruct a1 as [[[[[[[a' b'] c'] d'] e'] f'] pal'] cd]. apply ok_inj in E. subst pal'.
    split; [|intros Hh; rewrite (halves_etc _ Hh) in Et; discriminate].
    enough (let '(_, pal, _) := (a', b', c', d', e', f', pal, cd) in zlen pal = p_num (h_color_endpoints h)) as K by exact K.
    revert E4. apply (for_range_ok_inv (fun i (st : Z * Z * Z * Z * Z * Z * list Z * codec) => let '(_, pal, _) := st in zlen pal = i)); [lia|reflexivity|].
    intros i [[[[[[[a1 b1] c3] d3] e3] f3] p3] cd'] st' Hi L S. unfold color_endpoint_step in S.
    do 6 (let T := fresh "T" in apply bind_ok_inv in S; destruct S as ([? ?] & T & S)). apply ok_inj in S. subst st'. rewrite zlen_app, L. reflexivity.
Qed.

Lemma etc_selectors_len m sub i s pal pal' : etc_selectors m sub i s pal = Ok pal' -> zlen pal' = zlen pal.
Proof.
  intros E. unfold etc_selectors in E. cbv zeta in E. step E. destruct a as [t p]. apply ok_inj in E. subst p.
  enough (zlen (snd (t, pal')) = zlen pal) as K by exact K.
  revert E0. apply (for_range_ok_inv (fun _ (st : Z * list Z) => zlen (snd st) = zlen pal)); [lia|reflexivity|].
  intros hh st st' _ I S. step S. destruct a as [t1 p1]. apply ok_inj in S. subst st'. cbn [snd].
  enough (zlen (snd (t1, p1)) = zlen pal) as K by exact K.
  revert E. apply (for_range_ok_inv (fun _ (st : Z * list Z) => zlen (snd st) = zlen pal)); [lia|exact I|].
  intros w [t2 p2] st3 _ J S. cbn [snd] in J. inv3 S p4 T1.
  assert (zlen p4 = zlen p2) as La.
  { destruct sub; [|congruence]. inv3 T1 x1 X1. inv3 T1 x2 X2. exact (upd_len _ _ _ _ T1). }
  inv3 S b T2. inv3 S old T3. inv3 S p5 T4. apply ok_inj in S. subst st3. cbn [snd]. rewrite (upd_len _ _ _ _ T4). lia.
Qed.
Lemma u_color_selectors_len m d h pal : 0 <= p_num (h_color_selectors h) -> unity_color_selectors m d h = Ok pal ->
  zlen pal = (if has_halves (h_format h) then 2 else 1) * p_num (h_color_selectors h).
Proof.
  intros Hn E. unfold unity_color_selectors in E. cbv zeta in E. step E. step E. step E. destruct a1 as [dm c1]. step E. destruct a1 as [[s p] cd]. apply ok_inj in E. subst p.
  rewrite subblocks_halves in E3. set (size := (if has_halves (h_format h) then 2 else 1) * p_num (h_color_selectors h)).
  assert ((if has_halves (h_format h) then Z.shiftl (p_num (h_color_selectors h)) 1 else p_num (h_color_selectors h)) = size) as Es.
  { unfold size. destruct (has_halves (h_format h)); [rewrite Z.shiftl_mul_pow2 by lia; change (2 ^ 1) with 2|]; ring. }
  rewrite Es in E3. assert (0 <= size) as Hs by (unfold size; destruct (has_halves (h_format h)); lia).
  enough (let '(_, pal, _) := (s, pal, cd) in zlen pal = size) as K by exact K.
  revert E3. apply (for_range_ok_inv (fun _ (st : Z * list Z * codec) => let '(_, pal, _) := st in zlen pal = size)); [lia|unfold zlen; rewrite repeat_length; lia|].
  intros i [[s' p'] c'] st' _ L S. inv3 S r T1. destruct r as [s2 c2]. inv3 S r T2. apply ok_inj in S. subst st'.
  destruct (has_etc_color_blocks (h_format h)); [rewrite (etc_selectors_len _ _ _ _ _ _ T2); exact L|rewrite (upd_len _ _ _ _ T2); exact L].
Qed.

Lemma u_alpha_selectors_len m d h pal : 0 <= p_num (h_alpha_selectors h) -> unity_alpha_selectors m d h = Ok pal ->
  zlen pal = 3 * p_num (h_alpha_selectors h) /\ words pal.
Proof.
  intros Hn E. unfold unity_alpha_selectors in E. cbv zeta in E. step E. step E. step E. destruct a1 as [dm c1]. step E. step E. destruct a2 as [[[x y] p] cd]. apply ok_inj in E. subst p.
  enough (let '(_, pal, _) := (x, y, pal, cd) in zlen pal = 3 * p_num (h_alpha_selectors h) /\ words pal) as K by exact K.
  revert E4. apply (for_range_ok_inv (fun i (st : Z * Z * list Z * codec) => let '(_, pal, _) := st in zlen pal = 3 * i /\ words pal)); [lia|split; [reflexivity|constructor]|].
  intros i [[[x' y'] p'] c'] st' _ [L V] S. step S. destruct a2 as [[l0 s0] c2]. step S. destruct a2 as [[l1 s1] c3]. apply ok_inj in S. subst st'.
  split; [rewrite zlen_app, L; change (3 * i + 3 = 3 * (i + 1)); lia|].
  apply Forall_app. split; [exact V|]. repeat (constructor; [unfold u16; apply Z.mod_pos_bound; lia|]). constructor.
Qed.
Lemma write_or_keep buf k v buf' : words buf -> write_or_u8 buf k v = Ok buf' -> zlen buf' = zlen buf /\ words buf'.
Proof.
  intros V E. unfold write_or_u8 in E. cbv zeta in E. step E.
  assert (forall x, 0 <= u16 x < 2 ^ 16) as U by (intros; apply Z.mod_pos_bound; lia).
  assert (0 <= u8 a < 2 ^ 16) as B by (pose proof (Z.mod_pos_bound a 256 ltac:(lia)); unfold u8; change (2 ^ 8) with 256; lia).
  destruct (negb _); (split; [exact (upd_len _ _ _ _ E)|]; refine (upd_forall _ _ _ _ _ V _ E); change 65536 with (2 ^ 16)); repeat apply lor_range; try apply U; try exact B; lia.
Qed.
Lemma write_bits_keep m buf base x s buf' : words buf -> write_or_bits m buf base x s = Ok buf' -> zlen buf' = zlen buf /\ words buf'.
Proof.
  intros V E. unfold write_or_bits in E. cbv zeta in E. step E. step E. destruct (write_or_keep _ _ _ _ V E1) as [L1 V1].
  destruct (_ <? 3); [destruct (write_or_keep _ _ _ _ V1 E) as [L2 V2]; split; [lia|exact V2]|apply ok_inj in E; subst; split; auto].
Qed.
Lemma words_zeros n : words (repeat 0 n).
Proof. apply Forall_forall. intros x I. apply repeat_spec in I. subst. lia. Qed.
Lemma u_alpha_etc_len m d h pal : 0 <= p_num (h_alpha_selectors h) -> unity_alpha_selectors_etc m d h = Ok pal ->
  zlen pal = 6 * p_num (h_alpha_selectors h) + 1 /\ words pal.
Proof.
  intros Hn E. unfold unity_alpha_selectors_etc in E. cbv zeta in E. step E. step E. step E. destruct a1 as [dm c1]. step E. destruct a1 as [[x p] cd]. apply ok_inj in E. subst p.
  set (n := 6 * p_num (h_alpha_selectors h) + 1).
  enough (let '(_, pal, _) := (x, pal, cd) in zlen pal = n /\ words pal) as K by exact K.
  revert E3. apply (for_range_ok_inv (fun i (st : list Z * list Z * codec) => let '(_, pal, _) := st in zlen pal = n /\ words pal)); [lia|split; [unfold zlen; rewrite repeat_length; unfold n; lia|apply words_zeros]|].
  intros i [[x' p'] c'] st' _ I S. inv3 S r T1. destruct r as [[[l g] p2] c2]. apply ok_inj in S. subst st'.
  enough (let '(_, pal, _) := (l, g, p2, c2) in zlen pal = n /\ words pal) as K by exact K.
  revert T1. apply (for_range_ok_inv (fun i (st : list Z * Z * list Z * codec) => let '(_, pal, _) := st in zlen pal = n /\ words pal)); [lia|exact I|].
  intros k [[[l3 g3] p3] c3] st3 _ [L V] S. inv3 S r T2. destruct r as [s [[l4 g4] c4]]. inv3 S q1 T3. inv3 S q2 T4. apply ok_inj in S. subst st3.
  destruct (write_bits_keep _ _ _ _ _ _ V T3) as [L1 V1]. destruct (write_bits_keep _ _ _ _ _ _ V1 T4) as [L2 V2]. split; [lia|exact V2].
Qed.
Lemma u_alpha_etcs_len m d h pal : 0 <= p_num (h_alpha_selectors h) -> unity_alpha_selectors_etcs m d h = Ok pal ->
  zlen pal = 3 * p_num (h_alpha_selectors h) + 1 /\ words pal.
Proof.
  intros Hn E. unfold unity_alpha_selectors_etcs in E. cbv zeta in E. step E. step E. step E. destruct a1 as [dm c1]. step E. destruct a1 as [[x p] cd]. apply ok_inj in E. subst p.
  set (n := 3 * p_num (h_alpha_selectors h) + 1).
  enough (let '(_, pal, _) := (x, pal, cd) in zlen pal = n /\ words pal) as K by exact K.
  revert E3. apply (for_range_ok_inv (fun i (st : list Z * list Z * codec) => let '(_, pal, _) := st in zlen pal = n /\ words pal)); [lia|split; [unfold zlen; rewrite repeat_length; unfold n; lia|apply words_zeros]|].
  intros i [[x' p'] c'] st' _ I S. inv3 S r T1. destruct r as [[[l g] p2] c2]. apply ok_inj in S. subst st'.
  enough (let '(_, pal, _) := (l, g, p2, c2) in zlen pal = n /\ words pal) as K by exact K.
  revert T1. apply (for_range_ok_inv (fun i (st : list Z * Z * list Z * codec) => let '(_, pal, _) := st in zlen pal = n /\ words pal)); [lia|exact I|].
  intros k [[[l3 g3] p3] c3] st3 _ [L V] S. inv3 S r T2. destruct r as [s [[l4 g4] c4]]. inv3 S q1 T3. apply ok_inj in S. subst st3.
  destruct (write_bits_keep _ _ _ _ _ _ V T3) as [L1 V1]. split; [lia|exact V1].
Qed.

Lemma u_init_palettes m d u : bytes d -> unity_init m d (zlen d) = Ok u ->
  u_palette_sizes d (u_color_endpoints u) (u_color_selectors u) (u_alpha_endpoints u) (u_alpha_selectors u) /\
  (has_halves (number d 18 1) = true -> Forall five_bits (u_color_endpoints u)) /\
  words (u_alpha_endpoints u) /\ words (u_alpha_selectors u).
Proof.
  intros Hb E. unfold unity_init in E. step E. step E. destruct a0 as [[[[first e0] s0] e1] s1].
  step E. destruct a0 as [ce cs]. step E. destruct a0 as [ae al].
  assert (u = mkUnpacker d (zlen d) a first e0 e1 s0 s1 ce cs ae al) as -> by congruence.
  cbn [u_color_endpoints u_color_selectors u_alpha_endpoints u_alpha_selectors]. destruct (header_nums d a Hb E0) as (-> & H1 & H2 & H3).
  unfold u_palette_sizes.
  assert (forall o, 0 <= p_num (palette_at d o) < 65536) as R by (intros o; apply (number_range d (o + 6) 2 Hb); lia).
  pose proof (R 33) as R1. pose proof (R 41) as R2. pose proof (R 49) as R3. pose proof (R 57) as R4.
  change (palette_at d 33) with (h_color_endpoints (header_at d)) in R1. change (palette_at d 41) with (h_color_selectors (header_at d)) in R2.
  change (palette_at d 49) with (h_alpha_endpoints (header_at d)) in R3. change (palette_at d 57) with (h_alpha_selectors (header_at d)) in R4.
  change (number d 39 2) with (p_num (h_color_endpoints (header_at d))). change (number d 47 2) with (p_num (h_color_selectors (header_at d))).
  change (number d 55 2) with (p_num (h_alpha_endpoints (header_at d))). change (number d 63 2) with (p_num (h_alpha_selectors (header_at d))).
  change (number d 18 1) with (h_format (header_at d)).
  assert (forall a b c d e f g : Prop, (a /\ b /\ e) -> (c /\ d /\ f /\ g) -> (a /\ b /\ c /\ d) /\ e /\ f /\ g) as Q by tauto. apply Q; clear Q.
  - destruct (Z.eqb_spec (p_num (h_color_endpoints (header_at d))) 0) as [Z0|Z0]; cbn [negb] in E2.
    + apply ok_inj in E2. assert (ce = [] /\ cs = []) as [-> ->] by (split; congruence). rewrite Z0. repeat split. constructor.
    + step E2. step E2. apply ok_inj in E2. assert (a = ce /\ a0 = cs) as [-> ->] by (split; congruence).
      destruct (u_color_endpoints_len m d _ _ (proj1 R1) E4) as [L F]. split; [exact L|]. split; [exact (u_color_selectors_len m d _ _ (proj1 R2) E5)|exact F].
  - destruct (Z.eqb_spec (p_num (h_alpha_endpoints (header_at d))) 0) as [Z0|Z0]; cbn [negb] in E3.
    + apply ok_inj in E3. assert (ae = [] /\ al = []) as [-> ->] by (split; congruence). rewrite Z0. repeat split; constructor.
    + step E3. step E3. apply ok_inj in E3. assert (a = ae /\ a0 = al) as [-> ->] by (split; congruence).
      destruct (alpha_endpoints_len m d _ _ (proj1 R3) E4) as [L V]. split; [exact L|]. split; [|split; [exact V|]].
      all: change FmtEtc2as with 14 in E5; change FmtEtc2a with 12 in E5.
      all: destruct (Z.eqb_spec (h_format (header_at d)) 14) as [F|F]; [try (rewrite F; cbn [Z.eqb Pos.eqb]); exact (proj1 (u_alpha_etcs_len m d _ _ (proj1 R4) E5)) || exact (proj2 (u_alpha_etcs_len m d _ _ (proj1 R4) E5))|].
      all: destruct (Z.eqb_spec (h_format (header_at d)) 12) as [F2|F2].
      all: first [exact (proj1 (u_alpha_etc_len m d _ _ (proj1 R4) E5)) | exact (proj2 (u_alpha_etc_len m d _ _ (proj1 R4) E5)) | exact (proj1 (u_alpha_selectors_len m d _ _ (proj1 R4) E5)) | exact (proj2 (u_alpha_selectors_len m d _ _ (proj1 R4) E5))].
Qed.

Lemma some_u_palettes d : bytes d -> exists ce cs ae al, u_palette_sizes d ce cs ae al /\ (has_halves (number d 18 1) = true -> Forall five_bits ce).
Proof.
  intros Hb. assert (forall n, 0 <= n -> zlen (repeat 0 (Z.to_nat n)) = n) as L by (intros n Hn; unfold zlen; rewrite repeat_length; lia).
  pose proof (number_range d 39 2 Hb ltac:(lia)). pose proof (number_range d 47 2 Hb ltac:(lia)). pose proof (number_range d 55 2 Hb ltac:(lia)). pose proof (number_range d 63 2 Hb ltac:(lia)).
  unfold u_palette_sizes. cbv zeta.
  match goal with |- exists ce cs ae al, (_ /\ zlen cs = ?y /\ _ /\ zlen al = ?t) /\ _ => exists (repeat 0 (Z.to_nat (number d 39 2))), (repeat 0 (Z.to_nat y)), (repeat 0 (Z.to_nat (number d 55 2))), (repeat 0 (Z.to_nat t)) end.
  split.
  - destruct (number d 39 2 =? 0), (number d 55 2 =? 0), (has_halves (number d 18 1)), (number d 18 1 =? 12), (number d 18 1 =? 14); rewrite !L by lia; auto.
  - intros _. apply Forall_forall. intros x I. apply repeat_spec in I. subst x. split; [lia|]. intros c Hc. unfold color_byte. rewrite Z.div_0_l; [reflexivity|]. apply Z.pow_nonzero; lia.
Qed.

Section Level.
Context (m : build) (d : list Z) (u : unpacker) (level : Z).
Let f := number d 18 1.
Let faces := number d 17 1.
Let W := level_cols (number d 12 2) level.
Let H := level_cols (number d 14 2) level.

Lemma unity_level_2_inv src size out : u_palette_sizes d (u_color_endpoints u) (u_color_selectors u) (u_alpha_endpoints u) (u_alpha_selectors u) ->
  (has_halves f = true -> Forall five_bits (u_color_endpoints u)) -> words (u_alpha_endpoints u) -> words (u_alpha_selectors u) ->
  u_header u = header_at d -> bytes d -> 0 <= level -> 1 <= faces -> faces = 1 \/ H mod 2 = 0 -> m = Wrapping \/ W mod 2 = 0 ->
  W * u_block_size f * H < 2 ^ 32 ->
  unity_unpack_level_2 m u src size (W * u_block_size f * H) (W * u_block_size f) level = Ok out ->
  exists block, (forall q, 0 <= q < faces * H * W -> u_drawable f (u_color_endpoints u) (u_color_selectors u) (u_alpha_endpoints u) (u_alpha_selectors u) (block q)) /\
    out = flat_map block (zrange 0 (faces * H * W)).
Proof.
  intros (SZ1 & SZ2 & SZ3 & SZ4) H5 VE VA Eh Hb Hl HF HS HM HZ.
  pose proof (number_range d 12 2 Hb ltac:(lia)) as Nw. pose proof (number_range d 14 2 Hb ltac:(lia)) as Nh.
  destruct (level_cols_eq (number d 12 2) level ltac:(lia) Hl) as [E1 HW]. destruct (level_cols_eq (number d 14 2) level ltac:(lia) Hl) as [E2 HH].
  pose proof (level_cols_le (number d 12 2) level ltac:(lia) Hl) as HW2. pose proof (level_cols_le (number d 14 2) level ltac:(lia) Hl) as HH2.
  fold W in E1, HW, HW2. fold H in E2, HH, HH2. pose proof (number_range d 17 1 Hb ltac:(lia)) as [_ Nf]. change (256 ^ 1) with 256 in Nf. fold faces in Nf.
  unfold unity_unpack_level_2. rewrite Eh. cbn [h_width h_height h_format h_faces header_at]. rewrite E1, E2. fold f faces.
  change FmtDxt1 with 0. change FmtDxt5a with 9. change FmtDxt5 with 2. change FmtDxt5CcxY with 3. change FmtDxt5XGxR with 4. change FmtDxt5XGbr with 5. change FmtDxt5Agbr with 6. change FmtDxnXy with 7. change FmtDxnYx with 8.
  change FmtEtc1 with 10. change FmtEtc2 with 11. change FmtEtc2a with 12. change FmtEtc1s with 13. change FmtEtc2as with 14.
  fold (u_block_size f). set (B := u_block_size f) in *.
  assert (B = 8 \/ B = 16) as HB by (unfold B, u_block_size; match goal with |- context [if ?b then _ else _] => destruct b end; auto).
  assert ((W * B =? 0) = false) as -> by (apply Z.eqb_neq; nia).
  assert ((W * B <? B * W) = false) as -> by (apply Z.ltb_ge; lia).
  assert (Z.land (W * B) 3 = 0) as ->. { change 3 with (Z.ones 2). rewrite Z.land_ones by lia. change (2 ^ 2) with 4. destruct HB as [->| ->]; dlia. }
  cbn [orb negb Z.eqb bind].
  assert (0 <= W * B * H) as HN by (destruct HB as [->| ->]; nia).
  rewrite ua_ok by lia. cbn [bind]. rewrite Z.ltb_irrefl. intros E. step E. rename a into c. clear E0. revert E.
  set (ret := repeat 0 (Z.to_nat (W * B * H * faces))).
  assert (zlen ret = faces * H * W * B) as Lr. { unfold ret. unfold zlen. rewrite repeat_length, Z2Nat.id by nia. ring. }
  assert (h_faces (u_header u) = faces) as Ef by (rewrite Eh; reflexivity).
  assert ((faces * H + 2) * (W + 2) * (4 * 4) <= 2 ^ 48) as Room.
  { assert (faces * H <= 256 * 2 ^ 14) by (apply Z.mul_le_mono_nonneg; lia).
    assert ((faces * H + 2) * (W + 2) <= (256 * 2 ^ 14 + 2) * (2 ^ 14 + 2)) by (apply Z.mul_le_mono_nonneg; lia). lia. }
  clear HN HZ Nw Nh E1 E2 Hl. clearbody ret.
  destruct ((f =? 0) || (f =? 13)) eqn:F1.
  { assert (f = 0 \/ f = 13) as F by lia. assert (B = 8) as EB by (unfold B; destruct F as [->| ->]; reflexivity). rewrite EB in *.
    assert (u_drawable f = fun ce cs ae al => plain_block [color_plane ce cs]) as -> by (unfold u_drawable; destruct F as [->| ->]; reflexivity).
    apply unity_dxt1_inv; auto. }
  destruct ((f =? 2) || (f =? 3) || (f =? 5) || (f =? 6) || (f =? 4) || (f =? 14)) eqn:F2.
  { assert (f = 2 \/ f = 3 \/ f = 4 \/ f = 5 \/ f = 6 \/ f = 14) as F by lia.
    assert (B = 16) as EB by (unfold B; destruct F as [->|[->|[->|[->|[->| ->]]]]]; reflexivity). rewrite EB in *.
    assert (u_drawable f = fun ce cs ae al => plain_block [alpha_plane ae al; color_plane ce cs]) as -> by (unfold u_drawable; destruct F as [->|[->|[->|[->|[->| ->]]]]]; reflexivity).
    apply unity_dxt5_inv; auto. }
  destruct (f =? 9) eqn:F3.
  { assert (f = 9) as F by lia. assert (B = 8) as EB by (unfold B; rewrite F; reflexivity). rewrite EB in *.
    assert (u_drawable f = fun ce cs ae al => plain_block [alpha_plane ae al]) as -> by (unfold u_drawable; rewrite F; reflexivity).
    apply unity_dxt5a_inv; auto. }
  destruct ((f =? 7) || (f =? 8)) eqn:F4.
  { assert (f = 7 \/ f = 8) as F by lia. assert (B = 16) as EB by (unfold B; destruct F as [->| ->]; reflexivity). rewrite EB in *.
    assert (u_drawable f = fun ce cs ae al => plain_block [alpha_plane ae al; alpha_plane ae al]) as -> by (unfold u_drawable; destruct F as [->| ->]; reflexivity).
    apply unity_dxn_inv; auto. }
  assert (has_halves f = true -> exists n, zlen (u_color_selectors u) = 2 * n) as Even.
  { intros Hh. unfold f in Hh. rewrite Hh in SZ2. destruct (number d 39 2 =? 0); [exists 0; lia|eexists; exact SZ2]. }
  destruct ((f =? 10) || (f =? 11)) eqn:F5.
  { assert (f = 10 \/ f = 11) as F by lia. assert (B = 8) as EB by (unfold B; destruct F as [->| ->]; reflexivity). rewrite EB in *.
    assert (has_halves f = true) as Hh by (destruct F as [->| ->]; reflexivity).
    assert (u_drawable f = halves_block false) as -> by (unfold u_drawable; destruct F as [->| ->]; reflexivity).
    apply unity_etc1_inv; auto. }
  destruct (f =? 12) eqn:F6; [|discriminate].
  assert (f = 12) as F by lia. assert (B = 16) as EB by (unfold B; rewrite F; reflexivity). rewrite EB in *.
  assert (has_halves f = true) as Hh by (rewrite F; reflexivity).
  assert (u_drawable f = halves_block true) as -> by (unfold u_drawable; rewrite F; reflexivity).
  apply unity_etc2a_inv; auto.
  fold f in SZ4. rewrite F in SZ4. cbn [Z.eqb Pos.eqb] in SZ4. destruct (number d 55 2 =? 0); [left|right; eexists; exact SZ4].
  apply length_zero_iff_nil. unfold zlen in SZ4. lia.
Qed.
End Level.

Lemma unity_level_2_none m u src size n pitch level out : unity_unpack_level_2 m u src size n pitch level = Ok out -> h_faces (u_header u) = 0 -> out = [].
Proof.
  intros E Hf. unfold unity_unpack_level_2 in E. cbv zeta in E. rewrite Hf, Z.mul_0_r in E. change (repeat 0 (Z.to_nat 0)) with (@nil Z) in E. step E. step E. destruct (n <? a0); [discriminate|].
  step E. unfold unity_unpack_dxt1, unity_unpack_dxt5, unity_unpack_dxt5a, unity_unpack_dxn, unity_unpack_etc1, unity_unpack_etc2a, unity_loops in E. rewrite Hf in E.
  unfold for_range in E. change (zrange 0 0) with (@nil Z) in E. cbn [for_list bind] in E. cbv zeta in E.
  repeat match type of E with (if ?b then _ else _) = _ => destruct b; [inv3 E x X; inv3 X df Y; cbn [bind] in X; apply ok_inj in X; subst x; congruence|] end. discriminate.
Qed.

Lemma unity_sound m d : bytes d -> exists ce cs ae al, u_palette_sizes d ce cs ae al /\ (has_halves (number d 18 1) = true -> Forall five_bits ce) /\
  forall level f dxt, 0 <= level -> unity_crunch_unpack_level m d (zlen d) level = Ok (f, dxt) ->
  let n := number d 17 1 * level_cols (number d 14 2) level * level_cols (number d 12 2) level in
  exists block, (forall q, 0 <= q < n -> u_drawable f ce cs ae al (block q)) /\ dxt = flat_map block (zrange 0 n).
Proof.
  intros Hb. destruct (unity_unpack_begin m d (zlen d)) as [u|e|] eqn:Eb.
  2,3: destruct (some_u_palettes d Hb) as (ce & cs & ae & al & S & S5); exists ce, cs, ae, al; split; [exact S|]; split; [exact S5|];
    intros level f dxt Hl E; exfalso; unfold unity_crunch_unpack_level in E; step E; rewrite Eb in E; discriminate.
  pose proof (unity_begin_header m d u Hb Eb) as EH.
  assert (unity_init m d (zlen d) = Ok u) as Eu.
  { unfold unity_unpack_begin in Eb. destruct (zlen d <? CRNHEADER_MIN_SIZE); [discriminate|]. destruct (unity_init m d (zlen d)); [exact Eb|discriminate|discriminate]. }
  destruct (u_init_palettes m d u Hb Eu) as (S & S5 & VE & VA).
  exists (u_color_endpoints u), (u_color_selectors u), (u_alpha_endpoints u), (u_alpha_selectors u). split; [exact S|]. split; [exact S5|].
  intros level fr dxt Hl E. cbv zeta. pose proof E as E'. destruct (unity_unpack_facts m d level fr dxt Hb Hl E') as (-> & _ & raw & tex & T & _). clear E'.
  pose proof (number_range d 12 2 Hb ltac:(lia)) as Nw. pose proof (number_range d 14 2 Hb ltac:(lia)) as Nh. pose proof (number_range d 17 1 Hb ltac:(lia)) as Nf.
  destruct (level_cols_eq (number d 12 2) level ltac:(lia) ltac:(lia)) as [E1 HW]. destruct (level_cols_eq (number d 14 2) level ltac:(lia) ltac:(lia)) as [E2 HH].
  pose proof (level_cols_le (number d 12 2) level ltac:(lia) Hl) as HW2. pose proof (level_cols_le (number d 14 2) level ltac:(lia) Hl) as HH2.
  set (W := level_cols (number d 12 2) level) in *. set (H := level_cols (number d 14 2) level) in *.
  assert (number d 17 1 = 0 \/ 1 <= number d 17 1) as faces_ok by lia.
  assert (1 <= number d 17 1 -> number d 17 1 = 1 \/ H mod 2 = 0) as HS.
  { intros HF. destruct (Z.eq_dec (number d 17 1) 1); [left; assumption|right]. pose proof (Z.mod_pos_bound H 2 ltac:(lia)).
    destruct (Z.eq_dec (H mod 2) 1) as [O|]; [|lia]. exfalso. exact (unity_faces_never m d level _ Hb Hl ltac:(lia) O E). }
  assert (m = Wrapping \/ W mod 2 = 0) as HM.
  { pose proof (Z.mod_pos_bound W 2 ltac:(lia)). destruct (Z.eq_dec (W mod 2) 1) as [O|]; [|right; lia].
    left. destruct m; [|reflexivity]. exfalso. exact (unity_odd_never d level _ Hb Hl O E). }
  assert (W * u_block_size (number d 18 1) * H < 2 ^ 32) as HZ.
  { apply Z.nle_gt. intros G. refine (unity_huge_never m d level _ Hb Hl _ E). fold W H. replace (W * H * u_block_size (number d 18 1)) with (W * u_block_size (number d 18 1) * H) by ring. exact G. }
  unfold unity_crunch_unpack_level in E. step E. apply or_err_inv in E0. destruct (info_inv d a Hb E0) as (-> & L1 & L2 & WF & F15).
  rewrite Eb in E. cbn [bind i_width i_height i_format info_at] in E.
  rewrite (Z.max_comm 1 (Z.shiftr (number d 12 2) level)), (Z.max_comm 1 (Z.shiftr (number d 14 2) level)), E1, E2 in E.
  rewrite !(Z.max_r 1) in E by lia.
  step E. step E. step E. step E. apply ok_inj in E. assert (a2 = dxt) by congruence. subst a2. clear E.
  unfold unity_crnd_unpack_level in E6. destruct ((a1 <? 8) || (CRNMAX_LEVELS <=? level)); [discriminate|]. step E6. destruct a2 as [src sz].
  pose proof (unity_block_size _ _ _ _ E3 T) as Er. subst a. pose proof (unity_texels_size _ _ _ T) as Es.
  assert (raw = 8 \/ raw = 16) as Hr. { rewrite Es; unfold u_block_size. match goal with |- context [if ?b then _ else _] => destruct b end; auto. }
  rewrite ua_ok in E4 by (destruct Hr; subst raw; lia). apply ok_inj in E4. subst a0. rewrite <- Es in HZ.
  rewrite ua_ok in E5 by (split; [destruct Hr; subst raw; nia|exact HZ]). apply ok_inj in E5. subst a1. rewrite Es in E6, HZ.
  destruct faces_ok as [F0|F1].
  - exists (fun _ => []). rewrite F0, !Z.mul_0_l. split; [intros q Hq; lia|]. apply unity_level_2_none in E6; [|rewrite EH; exact F0]. rewrite E6. reflexivity.
  - exact (unity_level_2_inv m d u level src sz dxt S S5 VE VA EH Hb Hl F1 (HS F1) HM HZ E6).
Qed.
