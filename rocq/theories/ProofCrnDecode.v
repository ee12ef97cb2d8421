(** * From unpacked levels to pictures. *)
From Verif Require Import Base BaseLemmas ModelColor ModelBc ModelEtc ModelCrn ModelCrunch ModelUnity SpecImage SpecBc SpecEtc SpecCrnHeader
  SpecCrnLevel SpecCrnFile SpecCrnTexel ProofAstcRange ProofCrnGrid ProofCrnWhole ProofCrnHeader ProofCrnFile ProofCrnKeep PropBc PropEtc.

Lemma info_inv d i : bytes d -> crnd_get_texture_info d (zlen d) = Ok i ->
  i = info_at d /\ 74 <= zlen d /\ header_room d <= zlen d /\ well_formed d = true /\ number d 18 1 <= 15.
Proof.
  intros Hb H. rewrite (info_code d Hb) in H. destruct (Z.ltb_spec (zlen d) 74); [discriminate|]. destruct (Z.ltb_spec (zlen d) (header_room d)); [discriminate|].
  destruct (well_formed d) eqn:E; cbn [andb] in H; [|discriminate].
  assert (znth d 18 = number d 18 1) as E18. { unfold number. change (zrange 0 1) with [0]. cbn [fold_right]. change (18 + 0) with 18. change (256 ^ (1 - 1 - 0)) with 1. lia. }
  rewrite E18 in H. destruct (Z.leb_spec (number d 18 1) 15); [|discriminate]. injection H as <-. auto.
Qed.
Lemma or_err_inv {A} msg (e : res A) a : or_err msg e = Ok a -> e = Ok a.
Proof. destruct e; cbn; congruence. Qed.

Lemma begin_header m d u : bytes d -> crnd_unpack_begin m d (zlen d) = Ok u -> u_header u = header_at d.
Proof.
  intros Hb E. unfold crnd_unpack_begin in E. destruct (zlen d <? CRNHEADER_MIN_SIZE); [discriminate|]. apply or_err_inv in E.
  apply (init_sound m d u Hb E).
Qed.
Lemma unity_begin_header m d u : bytes d -> unity_unpack_begin m d (zlen d) = Ok u -> u_header u = header_at d.
Proof.
  intros Hb E. unfold unity_unpack_begin in E. destruct (zlen d <? CRNHEADER_MIN_SIZE); [discriminate|]. apply or_err_inv in E.
  unfold unity_init in E. rewrite (header_code d Hb) in E. destruct (zlen d <? 74); [discriminate|]. destruct (zlen d <? header_room d); [discriminate|].
  destruct (well_formed d); [|discriminate]. cbn [bind] in E. step E. destruct a as [[[[x1 x2] x3] x4] x5]. step E. destruct a as [y1 y2]. step E. destruct a as [z1 z2].
  injection E as <-. reflexivity.
Qed.

Lemma level_2_format m u src size n p l out : unpack_level_2 m u src size n p l = Ok out ->
  crunch_texels (h_format (u_header u)) <> None.
Proof.
  intros H. unfold unpack_level_2 in H. step H. step H. destruct (n <? a0); [discriminate|]. step H.
  unfold FmtDxt1, FmtDxt5, FmtDxt5CcxY, FmtDxt5XGbr, FmtDxt5Agbr, FmtDxt5XGxR, FmtDxt5a, FmtDxnXy, FmtDxnYx in H.
  unfold crunch_texels. set (f := h_format (u_header u)) in *.
  destruct (Z.eqb_spec f 0); [discriminate|]. destruct ((2 <=? f) && (f <=? 6)) eqn:E2; [discriminate|].
  destruct (Z.eqb_spec f 7); [discriminate|]. destruct (Z.eqb_spec f 8); [discriminate|]. destruct (Z.eqb_spec f 9); [discriminate|].
  cbn [orb] in *. repeat match type of H with context [f =? ?k] => destruct (Z.eqb_spec f k); [lia|] end. discriminate.
Qed.
Lemma unity_level_2_format m u src size n p l out : unity_unpack_level_2 m u src size n p l = Ok out ->
  unity_texels (h_format (u_header u)) <> None.
Proof.
  intros H. unfold unity_unpack_level_2 in H. step H. step H. destruct (n <? a0); [discriminate|]. step H.
  unfold FmtDxt1, FmtDxt5, FmtDxt5CcxY, FmtDxt5XGbr, FmtDxt5Agbr, FmtDxt5XGxR, FmtDxt5a, FmtDxnXy, FmtDxnYx, FmtEtc1, FmtEtc2, FmtEtc2a, FmtEtc1s, FmtEtc2as in H.
  unfold unity_texels, crunch_texels. set (f := h_format (u_header u)) in *.
  destruct (Z.eqb_spec f 10); [discriminate|]. destruct (Z.eqb_spec f 13); [discriminate|]. destruct (Z.eqb_spec f 11); [discriminate|].
  destruct (Z.eqb_spec f 12); [discriminate|]. destruct (Z.eqb_spec f 14); [discriminate|].
  destruct (Z.eqb_spec f 0); [discriminate|]. destruct ((2 <=? f) && (f <=? 6)) eqn:E2; [discriminate|].
  destruct (Z.eqb_spec f 7); [discriminate|]. destruct (Z.eqb_spec f 8); [discriminate|]. destruct (Z.eqb_spec f 9); [discriminate|].
  cbn [orb] in *. repeat match type of H with context [f =? ?k] => destruct (Z.eqb_spec f k); [lia|] end. discriminate.
Qed.

Lemma block_size f n raw tex : crn_bytes_per_dxt_block f = Ok n -> crunch_texels f = Some (raw, tex) -> n = raw.
Proof.
  intros E3 T. unfold crn_bytes_per_dxt_block, crn_format_bits_per_texel, FmtDxt1, FmtDxt5a, FmtEtc1, FmtDxt3, FmtDxt5, FmtDxnXy, FmtDxnYx, FmtDxt5CcxY, FmtDxt5XGxR, FmtDxt5XGbr, FmtDxt5Agbr in E3.
  unfold crunch_texels in T.
  destruct (Z.eqb_spec f 0) as [->|]; [cbn in E3; congruence|]. destruct ((2 <=? f) && (f <=? 6)) eqn:K.
  { injection T as <- _. assert (f = 2 \/ f = 3 \/ f = 4 \/ f = 5 \/ f = 6) as [->|[->|[->|[->| ->]]]] by lia; cbn in E3; congruence. }
  destruct (Z.eqb_spec f 7) as [->|]; [cbn in E3, T; congruence|]. destruct (Z.eqb_spec f 8) as [->|]; [cbn in E3, T; congruence|].
  destruct (Z.eqb_spec f 9) as [->|]; [cbn in E3, T; congruence|discriminate].
Qed.
Lemma unity_block_size f n raw tex : unity_bytes_per_dxt_block f = Ok n -> unity_texels f = Some (raw, tex) -> n = raw.
Proof.
  intros E3 T. unfold unity_bytes_per_dxt_block, unity_bits_per_texel, FmtDxt1, FmtDxt5a, FmtEtc1, FmtDxt3, FmtDxt5, FmtDxnXy, FmtDxnYx, FmtDxt5CcxY, FmtDxt5XGxR, FmtDxt5XGbr, FmtDxt5Agbr, FmtEtc2, FmtEtc2a, FmtEtc1s, FmtEtc2as in E3.
  unfold unity_texels, crunch_texels in T.
  destruct (Z.eqb_spec f 10) as [->|]; [cbn in E3, T; congruence|]. destruct (Z.eqb_spec f 13) as [->|]; [cbn in E3, T; congruence|].
  destruct (Z.eqb_spec f 11) as [->|]; [cbn in E3, T; congruence|]. destruct (Z.eqb_spec f 12) as [->|]; [cbn in E3, T; congruence|].
  destruct (Z.eqb_spec f 14) as [->|]; [cbn in E3, T; congruence|]. cbn [orb] in T.
  destruct (Z.eqb_spec f 0) as [->|]; [cbn in E3; congruence|]. destruct ((2 <=? f) && (f <=? 6)) eqn:K.
  { injection T as <- _. assert (f = 2 \/ f = 3 \/ f = 4 \/ f = 5 \/ f = 6) as [->|[->|[->|[->| ->]]]] by lia; cbn in E3; congruence. }
  destruct (Z.eqb_spec f 7) as [->|]; [cbn in E3, T; congruence|]. destruct (Z.eqb_spec f 8) as [->|]; [cbn in E3, T; congruence|].
  destruct (Z.eqb_spec f 9) as [->|]; [cbn in E3, T; congruence|discriminate].
Qed.

(** What comes out when unpacking succeeds. *)
Definition unpacked (tab : Z -> option (Z * (list Z -> Z -> Z))) (d : list Z) (level f : Z) (dxt : list Z) : Prop :=
  f = number d 18 1 /\ bytes dxt /\ exists raw tex, tab f = Some (raw, tex) /\
  (level_cols (number d 12 2) level * level_cols (number d 14 2) level * raw < 2 ^ 32 ->
   zlen dxt = number d 17 1 * (level_cols (number d 14 2) level * level_cols (number d 12 2) level * raw)).

Lemma ua_nonneg m w x v : 0 <= x -> 0 <= w -> ua m w x = Ok v -> 0 <= v.
Proof.
  intros Hx Hw H. unfold ua in H. destruct ((0 <=? x) && (x <? 2 ^ w)); [injection H as <-; exact Hx|].
  destruct m; [discriminate|]. injection H as <-. apply Z.mod_pos_bound. apply Z.pow_pos_nonneg; lia.
Qed.

Lemma unpack_facts m d level f dxt : bytes d -> 0 <= level -> crunch_unpack_level m d (zlen d) level = Ok (f, dxt) ->
  unpacked crunch_texels d level f dxt.
Proof.
  intros Hb Hl H. unfold crunch_unpack_level in H. step H. apply or_err_inv in E. destruct (info_inv d a Hb E) as (-> & L1 & L2 & WF & F15).
  step H. pose proof (begin_header m d a Hb E0) as EH. cbn [i_width i_height i_format info_at] in H.
  pose proof (number_range d 12 2 Hb ltac:(lia)) as Nw. pose proof (number_range d 14 2 Hb ltac:(lia)) as Nh. pose proof (number_range d 17 1 Hb ltac:(lia)) as Nf.
  destruct (level_cols_eq (number d 12 2) level ltac:(lia) ltac:(lia)) as [E1 HW]. destruct (level_cols_eq (number d 14 2) level ltac:(lia) ltac:(lia)) as [E2 HH].
  rewrite (Z.max_comm 1 (Z.shiftr (number d 12 2) level)), (Z.max_comm 1 (Z.shiftr (number d 14 2) level)), E1, E2 in H.
  rewrite !(Z.max_r 1) in H by lia. set (W := level_cols (number d 12 2) level) in *. set (H0 := level_cols (number d 14 2) level) in *.
  step H. step H. step H. step H. injection H as <- <-.
  unfold crnd_unpack_level in E6. destruct ((a2 <? 8) || (CRNMAX_LEVELS <=? level)); [discriminate|]. step E6. destruct a4 as [src sz].
  pose proof (level_2_format _ _ _ _ _ _ _ _ E6) as Ft. rewrite EH in Ft. cbn [h_format header_at] in Ft.
  destruct (crunch_texels (number d 18 1)) as [[raw tex]|] eqn:T; [|congruence].
  pose proof (block_size _ _ _ _ E3 T) as Er. subst a0.
  assert (raw = 8 \/ raw = 16) as Hr.
  { unfold crunch_texels in T. repeat match type of T with (if ?b then _ else _) = _ => destruct b end; try discriminate; injection T as <- _; auto. }
  pose proof (ua_nonneg m 32 (W * raw) a1 ltac:(nia) ltac:(lia) E4) as P1. pose proof (ua_nonneg m 32 (a1 * H0) a2 ltac:(nia) ltac:(lia) E5) as P2.
  apply unpack_level_2_keep in E6; [|rewrite EH; cbn [h_faces header_at]; nia]. rewrite EH in E6. cbn [h_faces header_at] in E6. destruct E6 as [B1 B2].
  split; [reflexivity|]. split; [exact B1|]. exists raw, tex. split; [exact T|]. intros Hs.
  assert (0 < W * H0) by nia. rewrite ua_ok in E4 by (split; [nia|]; assert (W * raw <= W * H0 * raw) by nia; lia). injection E4 as <-. rewrite ua_ok in E5 by nia. injection E5 as <-.
  rewrite B2. unfold W, H0. ring.
Qed.
Lemma unity_unpack_facts m d level f dxt : bytes d -> 0 <= level -> unity_crunch_unpack_level m d (zlen d) level = Ok (f, dxt) ->
  unpacked unity_texels d level f dxt.
Proof.
  intros Hb Hl H. unfold unity_crunch_unpack_level in H. step H. apply or_err_inv in E. destruct (info_inv d a Hb E) as (-> & L1 & L2 & WF & F15).
  step H. pose proof (unity_begin_header m d a Hb E0) as EH. cbn [i_width i_height i_format info_at] in H.
  pose proof (number_range d 12 2 Hb ltac:(lia)) as Nw. pose proof (number_range d 14 2 Hb ltac:(lia)) as Nh. pose proof (number_range d 17 1 Hb ltac:(lia)) as Nf.
  destruct (level_cols_eq (number d 12 2) level ltac:(lia) ltac:(lia)) as [E1 HW]. destruct (level_cols_eq (number d 14 2) level ltac:(lia) ltac:(lia)) as [E2 HH].
  rewrite (Z.max_comm 1 (Z.shiftr (number d 12 2) level)), (Z.max_comm 1 (Z.shiftr (number d 14 2) level)), E1, E2 in H.
  rewrite !(Z.max_r 1) in H by lia. set (W := level_cols (number d 12 2) level) in *. set (H0 := level_cols (number d 14 2) level) in *.
  step H. step H. step H. step H. injection H as <- <-.
  unfold unity_crnd_unpack_level in E6. destruct ((a2 <? 8) || (CRNMAX_LEVELS <=? level)); [discriminate|]. step E6. destruct a4 as [src sz].
  pose proof (unity_level_2_format _ _ _ _ _ _ _ _ E6) as Ft. rewrite EH in Ft. cbn [h_format header_at] in Ft.
  destruct (unity_texels (number d 18 1)) as [[raw tex]|] eqn:T; [|congruence].
  pose proof (unity_block_size _ _ _ _ E3 T) as Er. subst a0.
  assert (raw = 8 \/ raw = 16) as Hr.
  { unfold unity_texels, crunch_texels in T. repeat match type of T with (if ?b then _ else _) = _ => destruct b end; try discriminate; injection T as <- _; auto. }
  pose proof (ua_nonneg m 32 (W * raw) a1 ltac:(nia) ltac:(lia) E4) as P1. pose proof (ua_nonneg m 32 (a1 * H0) a2 ltac:(nia) ltac:(lia) E5) as P2.
  apply unity_unpack_level_2_keep in E6; [|rewrite EH; cbn [h_faces header_at]; nia]. rewrite EH in E6. cbn [h_faces header_at] in E6. destruct E6 as [B1 B2].
  split; [reflexivity|]. split; [exact B1|]. exists raw, tex. split; [exact T|]. intros Hs.
  assert (0 < W * H0) by nia. rewrite ua_ok in E4 by (split; [nia|]; assert (W * raw <= W * H0 * raw) by nia; lia). injection E4 as <-. rewrite ua_ok in E5 by nia. injection E5 as <-.
  rewrite B2. unfold W, H0. ring.
Qed.

Lemma some_pair {A B} (a c : A) (b d : B) : Some (a, b) = Some (c, d) -> a = c /\ b = d.
Proof. intros H. inversion H. auto. Qed.
(** The picture of unpacked data. *)
Lemma crunch_image m d f dxt raw tex : bytes d -> zlen d < 2 ^ 32 -> crunch_unpack_level m d (zlen d) 0 = Ok (f, dxt) ->
  crunch_texels f = Some (raw, tex) -> exists dec, image_decoder 4 4 raw tex dec /\
  forall w h image, decode_crunch m d w h image = dec dxt w h image.
Proof.
  intros Hb Hl H T. pose proof (zlen_nonneg d). unfold decode_crunch, u32. rewrite Z.mod_small by lia. rewrite H. cbn [with_level].
  unfold FmtDxt1, FmtDxt5, FmtDxt5CcxY, FmtDxt5XGbr, FmtDxt5Agbr, FmtDxt5XGxR, FmtDxt5a, FmtDxnXy, FmtDxnYx. unfold crunch_texels in T.
  destruct (Z.eqb_spec f 0) as [->|]; [cbn [Z.eqb Pos.eqb orb] in T; apply some_pair in T; destruct T as [<- <-]; exists (decode_bc1 m); split; [apply C06_bc1_image_exact|cbn [Z.eqb Pos.eqb orb]; reflexivity]|].
  destruct ((2 <=? f) && (f <=? 6)) eqn:K.
  { apply some_pair in T; destruct T as [<- <-]. assert (f = 2 \/ f = 3 \/ f = 4 \/ f = 5 \/ f = 6) as [->|[->|[->|[->| ->]]]] by lia; (exists (decode_bc3 m); split; [apply C09_bc3_image_exact|cbn [Z.eqb Pos.eqb orb]; reflexivity]). }
  destruct (Z.eqb_spec f 7) as [->|]; [cbn [Z.eqb Pos.eqb orb] in T; apply some_pair in T; destruct T as [<- <-]; exists (decode_bc5 m); split; [apply C10_bc5_image_exact|cbn [Z.eqb Pos.eqb orb]; reflexivity]|].
  destruct (Z.eqb_spec f 8) as [->|]; [cbn [Z.eqb Pos.eqb orb] in T; apply some_pair in T; destruct T as [<- <-]; exists (decode_bc5 m); split; [apply C10_bc5_image_exact|cbn [Z.eqb Pos.eqb orb]; reflexivity]|].
  destruct (Z.eqb_spec f 9) as [->|]; [cbn [Z.eqb Pos.eqb orb] in T; apply some_pair in T; destruct T as [<- <-]; exists (decode_bc4 m); split; [apply C10_bc4_image_exact|cbn [Z.eqb Pos.eqb orb]; reflexivity]|discriminate].
Qed.
Lemma unity_image m d f dxt raw tex : bytes d -> zlen d < 2 ^ 32 -> unity_crunch_unpack_level m d (zlen d) 0 = Ok (f, dxt) ->
  unity_texels f = Some (raw, tex) -> exists dec, image_decoder 4 4 raw tex dec /\
  forall w h image, decode_unity_crunch m d w h image = dec dxt w h image.
Proof.
  intros Hb Hl H T. pose proof (zlen_nonneg d). unfold decode_unity_crunch, u32. rewrite Z.mod_small by lia. rewrite H. cbn [with_level].
  unfold FmtDxt1, FmtDxt5, FmtDxt5CcxY, FmtDxt5XGbr, FmtDxt5Agbr, FmtDxt5XGxR, FmtDxt5a, FmtDxnXy, FmtDxnYx, FmtEtc1, FmtEtc2, FmtEtc2a, FmtEtc1s, FmtEtc2as. unfold unity_texels, crunch_texels in T.
  destruct (Z.eqb_spec f 10) as [->|]; [cbn [Z.eqb Pos.eqb orb] in T; apply some_pair in T; destruct T as [<- <-]; exists (decode_etc1 m); split; [apply C19_etc1_image_exact|cbn [Z.eqb Pos.eqb orb]; reflexivity]|].
  destruct (Z.eqb_spec f 13) as [->|]; [cbn [Z.eqb Pos.eqb orb] in T; apply some_pair in T; destruct T as [<- <-]; exists (decode_etc1 m); split; [apply C19_etc1_image_exact|cbn [Z.eqb Pos.eqb orb]; reflexivity]|].
  destruct (Z.eqb_spec f 11) as [->|]; [cbn [Z.eqb Pos.eqb orb] in T; apply some_pair in T; destruct T as [<- <-]; exists (decode_etc2_rgb m); split; [apply C20_etc2_rgb_image_exact|cbn [Z.eqb Pos.eqb orb]; reflexivity]|].
  destruct (Z.eqb_spec f 12) as [->|]; [cbn [Z.eqb Pos.eqb orb] in T; apply some_pair in T; destruct T as [<- <-]; exists (decode_etc2_rgba8 m); split; [apply C23_etc2_rgba8_image_exact|cbn [Z.eqb Pos.eqb orb]; reflexivity]|].
  destruct (Z.eqb_spec f 14) as [->|]; [cbn [Z.eqb Pos.eqb orb] in T; apply some_pair in T; destruct T as [<- <-]; exists (decode_etc2_rgba8 m); split; [apply C23_etc2_rgba8_image_exact|cbn [Z.eqb Pos.eqb orb]; reflexivity]|]. cbn [orb] in T.
  destruct (Z.eqb_spec f 0) as [->|]; [cbn [Z.eqb Pos.eqb orb] in T; apply some_pair in T; destruct T as [<- <-]; exists (decode_bc1 m); split; [apply C06_bc1_image_exact|cbn [Z.eqb Pos.eqb orb]; reflexivity]|].
  destruct ((2 <=? f) && (f <=? 6)) eqn:K.
  { apply some_pair in T; destruct T as [<- <-]. assert (f = 2 \/ f = 3 \/ f = 4 \/ f = 5 \/ f = 6) as [->|[->|[->|[->| ->]]]] by lia; (exists (decode_bc3 m); split; [apply C09_bc3_image_exact|cbn [Z.eqb Pos.eqb orb]; reflexivity]). }
  destruct (Z.eqb_spec f 7) as [->|]; [cbn [Z.eqb Pos.eqb orb] in T; apply some_pair in T; destruct T as [<- <-]; exists (decode_bc5 m); split; [apply C10_bc5_image_exact|cbn [Z.eqb Pos.eqb orb]; reflexivity]|].
  destruct (Z.eqb_spec f 8) as [->|]; [cbn [Z.eqb Pos.eqb orb] in T; apply some_pair in T; destruct T as [<- <-]; exists (decode_bc5 m); split; [apply C10_bc5_image_exact|cbn [Z.eqb Pos.eqb orb]; reflexivity]|].
  destruct (Z.eqb_spec f 9) as [->|]; [cbn [Z.eqb Pos.eqb orb] in T; apply some_pair in T; destruct T as [<- <-]; exists (decode_bc4 m); split; [apply C10_bc4_image_exact|cbn [Z.eqb Pos.eqb orb]; reflexivity]|discriminate].
Qed.

(** ** Whole files *)
Lemma block_of_pieces L (g : Z -> list Z) n k : 0 <= n -> 0 < L -> (forall q, 0 <= q < n -> zlen (g q) = L) -> 0 <= k < n ->
  block_bytes L k (flat_map g (zrange 0 n)) = g k.
Proof.
  intros Hn HL G Hk. pose proof (zlen_flat_map L g n Hn G) as Lf. unfold block_bytes.
  assert ((k + 1) * L <= n * L) by (apply Z.mul_le_mono_nonneg_r; lia). assert (0 <= L * k) by (apply Z.mul_nonneg_nonneg; lia).
  assert (zlen (firstn (Z.to_nat L) (skipn (Z.to_nat (L * k)) (flat_map g (zrange 0 n)))) = L) as E.
  { rewrite zlen_firstn, zlen_skipn, Lf by lia. lia. }
  apply znth_ext; [rewrite E; symmetry; apply G, Hk|]. intros i Hi. rewrite E in Hi.
  rewrite znth_firstn, znth_skipn by lia. rewrite Z2Nat.id by lia. rewrite (znth_flat_map L) by (auto; lia).
  replace (L * k + i) with (i + k * L) by ring. rewrite Z.div_add, Z.mod_add by lia. rewrite Z.div_small, Z.mod_small by lia. reflexivity.
Qed.

Lemma zlen_plane_block f ce cs ae al p e s : let planes := planes_of f ce cs ae al in 0 <= p < zlen planes ->
  zlen (pl_block (plane_at planes p) e s) = 8.
Proof.
  intros planes Hp. destruct (plane_kind f ce cs ae al p Hp) as [E|E]; unfold planes; rewrite E; cbn [color_plane alpha_plane pl_block];
    rewrite !zlen_app, !zlen_le by lia; reflexivity.
Qed.
Lemma zlen_level_block f ce cs ae al D W H fc x y raw tex : let planes := planes_of f ce cs ae al in
  crunch_texels f = Some (raw, tex) -> zlen (level_block planes D W H fc x y) = raw.
Proof.
  intros planes T. unfold level_block, chunk_block. unfold plane_nos. erewrite (zlen_flat_map 8); [|apply zlen_nonneg|intros; apply zlen_plane_block; assumption].
  unfold planes, planes_of. unfold crunch_texels in T. destruct (f =? 0); [injection T as <- _; reflexivity|].
  destruct ((2 <=? f) && (f <=? 6)); [injection T as <- _; reflexivity|]. destruct ((f =? 7) || (f =? 8)); [injection T as <- _; reflexivity|].
  destruct (f =? 9); [injection T as <- _; reflexivity|discriminate].
Qed.
Lemma planes_texels f ce cs ae al : planes_of f ce cs ae al <> [] -> exists tex, crunch_texels f = Some (block_size_of f, tex).
Proof.
  unfold planes_of, crunch_texels, block_size_of. destruct (Z.eqb_spec f 0) as [->|]; [eauto|].
  destruct ((2 <=? f) && (f <=? 6)) eqn:E; [destruct (Z.eqb_spec f 9); [lia|]; eauto|].
  destruct (Z.eqb_spec f 7) as [E7|]; [intros _; rewrite E7; exists bc5_texel; reflexivity|].
  destruct (Z.eqb_spec f 8) as [E8|]; [intros _; rewrite E8; exists bc5_texel; reflexivity|].
  destruct (Z.eqb_spec f 9) as [E9|]; [intros _; exists bc4_texel; reflexivity|]. intros K. cbn [orb] in K. congruence.
Qed.
