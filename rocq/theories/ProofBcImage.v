(** * BC1-BC5 and ATC images: instances of [block_decoder_correct] *)
From Verif Require Import Base BaseLemmas BitLemmas ModelColor SpecImage ProofDecoder ModelBc SpecBc ProofBc.

Definition len16 (buf : list Z) : Prop := zlen buf = 16.
Definition words16 (buf : list Z) : Prop := zlen buf = 16 /\ Forall is_u32 buf.
Definition red16 (buf : list Z) : Prop :=
  zlen buf = 16 /\ forall t, 0 <= t < 16 -> exists r, is_byte r /\ znth buf t = rgba r 0 0 255.
Definition redgreen16 (buf : list Z) : Prop :=
  zlen buf = 16 /\ forall t, 0 <= t < 16 -> exists r g, is_byte r /\ is_byte g /\ znth buf t = rgba r g 0 255.

Lemma is_byte_0 : is_byte 0. Proof. unfold is_byte; lia. Qed.
Lemma is_byte_255 : is_byte 255. Proof. unfold is_byte; lia. Qed.
Global Hint Resolve is_byte_0 is_byte_255 bytes_skipn bytes_firstn : core.

Lemma forall_znth (P : Z -> Prop) l : (forall t, 0 <= t < zlen l -> P (znth l t)) -> Forall P l.
Proof.
  intros H. rewrite (zlist_as_tab l). rewrite <- app_nil_r. apply forall_tab_app; auto using zlen_nonneg.
Qed.

Lemma red16_u32 buf : red16 buf -> Forall is_u32 buf.
Proof.
  intros [L H]. apply forall_znth; intros t Ht. destruct (H t ltac:(lia)) as (r & R & ->). apply rgba_u32; auto.
Qed.
Lemma redgreen16_u32 buf : redgreen16 buf -> Forall is_u32 buf.
Proof.
  intros [L H]. apply forall_znth; intros t Ht. destruct (H t ltac:(lia)) as (r & g & R & G & ->).
  apply rgba_u32; auto.
Qed.

Lemma init_len : len16 (repeat (color 0 0 0 255) (Z.to_nat 16)).
Proof. reflexivity. Qed.
Lemma init_words : words16 (repeat (color 0 0 0 255) (Z.to_nat 16)).
Proof. split; [reflexivity|]. rewrite Forall_forall. intros x Hx. apply repeat_spec in Hx. subst.
  unfold is_u32; vm_compute; split; congruence. Qed.
Lemma init_red : red16 (repeat (color 0 0 0 255) (Z.to_nat 16)).
Proof. split; [reflexivity|]. intros t Ht. exists 0. split; auto. enum t Ht; reflexivity. Qed.
Lemma init_redgreen : redgreen16 (repeat (color 0 0 0 255) (Z.to_nat 16)).
Proof. split; [reflexivity|]. intros t Ht. exists 0, 0. do 2 (split; auto). enum t Ht; reflexivity. Qed.

(** ** Texels depend only on the bytes of their own block *)
Lemma index2_firstn n b o t : 0 <= o -> o + 4 <= Z.of_nat n -> 0 <= t < 16 ->
  index2 (firstn n b) o t = index2 b o t.
Proof. intros; unfold index2. rewrite znth_firstn by dlia. auto. Qed.
Lemma le16_firstn n b o : 0 <= o -> o + 2 <= Z.of_nat n -> le16 (firstn n b) o = le16 b o.
Proof. intros; unfold le16. rewrite !znth_firstn by lia. auto. Qed.
Lemma interp8_firstn n b o t : 0 <= o -> o + 8 <= Z.of_nat n ->
  interp8 (firstn n b) o t = interp8 b o t.
Proof. intros; unfold interp8, index3. rewrite !znth_firstn by lia. auto. Qed.
Lemma bc1_parts_firstn n b o t : 0 <= o -> o + 8 <= Z.of_nat n -> 0 <= t < 16 ->
  bc1_r (firstn n b) o t = bc1_r b o t /\ bc1_g (firstn n b) o t = bc1_g b o t /\
  bc1_b (firstn n b) o t = bc1_b b o t.
Proof.
  intros; unfold bc1_r, bc1_g, bc1_b, bc1_four. rewrite !le16_firstn, !index2_firstn by lia. auto.
Qed.
Lemma bc1_texel_firstn b t : 0 <= t < 16 -> bc1_texel (firstn (Z.to_nat 8) b) t = bc1_texel b t.
Proof. intros; unfold bc1_texel. destruct (bc1_parts_firstn (Z.to_nat 8) b 0 t) as (-> & -> & ->); auto; lia. Qed.
Lemma bc1a_texel_firstn b t : 0 <= t < 16 -> bc1a_texel (firstn (Z.to_nat 8) b) t = bc1a_texel b t.
Proof.
  intros; unfold bc1a_texel. destruct (bc1_parts_firstn (Z.to_nat 8) b 0 t) as (-> & -> & ->); try lia.
  unfold bc1_four. rewrite !le16_firstn, index2_firstn by lia. auto.
Qed.
Lemma bc2_texel_firstn b t : 0 <= t < 16 -> bc2_texel (firstn (Z.to_nat 16) b) t = bc2_texel b t.
Proof.
  intros; unfold bc2_texel, bc2_alpha. destruct (bc1_parts_firstn (Z.to_nat 16) b 8 t) as (-> & -> & ->); try lia.
  rewrite znth_firstn by dlia. auto.
Qed.
Lemma bc3_texel_firstn b t : 0 <= t < 16 -> bc3_texel (firstn (Z.to_nat 16) b) t = bc3_texel b t.
Proof.
  intros; unfold bc3_texel. destruct (bc1_parts_firstn (Z.to_nat 16) b 8 t) as (-> & -> & ->); try lia.
  rewrite interp8_firstn by lia. auto.
Qed.
Lemma bc4_texel_firstn b t : bc4_texel (firstn (Z.to_nat 8) b) t = bc4_texel b t.
Proof. unfold bc4_texel. rewrite interp8_firstn by lia. auto. Qed.
Lemma bc5_texel_firstn b t : bc5_texel (firstn (Z.to_nat 16) b) t = bc5_texel b t.
Proof. unfold bc5_texel. rewrite !interp8_firstn by lia. auto. Qed.
Lemma atc_rgb_firstn dark n b o t a : 0 <= o -> o + 8 <= Z.of_nat n -> 0 <= t < 16 ->
  atc_rgb dark (firstn n b) o t a = atc_rgb dark b o t a.
Proof. intros; unfold atc_rgb, atc_mode. rewrite !le16_firstn, index2_firstn by lia. auto. Qed.

(** ** Instances *)
Lemma impl_len16 raw bd tex :
  (forall data buf, bytes data -> raw <= zlen data -> zlen buf = 16 -> bd data buf = Ok (tab 16 (tex data))) ->
  (forall b t, 0 <= t < 16 -> tex (firstn (Z.to_nat raw) b) t = tex b t) ->
  implements 16 raw bd len16 tex.
Proof.
  intros H L. split; [apply init_len|]. intros data buf Hb Hd Hl. eexists; split; [apply H; auto|].
  split; [|split].
  - unfold len16. rewrite zlen_tab; lia.
  - rewrite zlen_tab; lia.
  - intros t Ht. rewrite znth_tab by lia. rewrite L; auto.
Qed.

Lemma impl_words16 raw bd tex :
  (forall data buf, bytes data -> raw <= zlen data -> zlen buf = 16 -> Forall is_u32 buf ->
     bd data buf = Ok (tab 16 (tex data))) ->
  (forall b t, 0 <= t < 16 -> tex (firstn (Z.to_nat raw) b) t = tex b t) ->
  (forall b t, bytes b -> 0 <= t < 16 -> is_u32 (tex b t)) ->
  implements 16 raw bd words16 tex.
Proof.
  intros H L U. split; [apply init_words|]. intros data buf Hb Hd [Hl Hu]. eexists; split; [apply H; auto|].
  split; [|split].
  - split; [rewrite zlen_tab; lia|]. rewrite <- (app_nil_r (tab _ _)). apply forall_tab_app; auto. lia.
  - rewrite zlen_tab; lia.
  - intros t Ht. rewrite znth_tab by lia. rewrite L; auto.
Qed.

Lemma bc1_impl m : implements 16 8 (decode_bc1_block m) len16 bc1_texel.
Proof.
  apply impl_len16; [|apply bc1_texel_firstn].
  intros data buf Hb Hd Hl. rewrite bc1_block_ok by (auto; lia).
  rewrite skipn_all2, app_nil_r by (unfold zlen in *; lia). auto.
Qed.
Lemma bc1a_impl m : implements 16 8 (decode_bc1a_block m) len16 bc1a_texel.
Proof.
  apply impl_len16; [|apply bc1a_texel_firstn].
  intros data buf Hb Hd Hl. rewrite bc1a_block_ok by (auto; lia).
  rewrite skipn_all2, app_nil_r by (unfold zlen in *; lia). auto.
Qed.
Lemma atc_rgb4_impl m : implements 16 8 (decode_atc_rgb4_block m) len16 (atc_rgb4_texel atc_dark_code).
Proof.
  apply impl_len16; [|intros; apply atc_rgb_firstn; lia].
  intros data buf Hb Hd Hl. rewrite atc_rgb4_block_ok by (auto; lia).
  rewrite skipn_all2, app_nil_r by (unfold zlen in *; lia). auto.
Qed.
Lemma bc2_alpha_byte b t : is_byte (bc2_alpha b t).
Proof. unfold is_byte, bc2_alpha. pose proof (Z.mod_pos_bound (znth b (t / 2) / 16 ^ (t mod 2)) 16). lia. Qed.
Lemma bc2_impl m : implements 16 16 (decode_bc2_block m) words16 bc2_texel.
Proof.
  apply impl_words16; [|apply bc2_texel_firstn|].
  - intros data buf Hb Hd Hl Hu. rewrite bc2_block_ok by (auto; lia).
    rewrite skipn_all2, app_nil_r by (unfold zlen in *; lia). auto.
  - intros b t Hb Ht. destruct (bc1_parts_byte b 8 t Hb) as (R & G & B). apply rgba_u32; auto using bc2_alpha_byte.
Qed.
Lemma bc3_impl m : implements 16 16 (decode_bc3_block m) words16 bc3_texel.
Proof.
  apply impl_words16; [|apply bc3_texel_firstn|].
  - intros data buf Hb Hd Hl Hu. apply bc3_block_ok; auto.
  - intros b t Hb Ht. destruct (bc1_parts_byte b 8 t Hb) as (R & G & B). apply rgba_u32; auto using interp8_byte.
Qed.
Lemma atc_rgba8_impl m : implements 16 16 (decode_atc_rgba8_block m) words16 (atc_rgba8_texel atc_dark_code).
Proof.
  apply impl_words16.
  - intros data buf Hb Hd Hl Hu. rewrite atc_rgba8_block_gen by (auto; lia). rewrite Hl.
    apply (f_equal Ok), tab_ext. intros t Ht. destruct (Z.ltb_spec t 16); auto; lia.
  - intros b t Ht. unfold atc_rgba8_texel. rewrite atc_rgb_firstn, interp8_firstn by lia. auto.
  - intros b t Hb Ht. unfold atc_rgba8_texel.
    destruct (atc_rgb_parts atc_dark_code b 8 t 255 Hb is_byte_255 atc_dark_code_byte)
      as (r & g & bl & R & G & B & ->). apply rgba_u32; auto using interp8_byte.
Qed.
Lemma bc4_impl m : implements 16 8 (decode_bc4_block m) red16 bc4_texel.
Proof.
  split; [apply init_red|]. intros data buf Hb Hd Hr.
  eexists; split; [apply bc4_block_gen; auto using red16_u32|]. destruct Hr as [Hl Hr]. rewrite Hl.
  assert (forall t, 0 <= t < 16 ->
    znth (tab 16 (fun t => set_chan 2 (znth buf t) (interp8 data 0 t))) t = bc4_texel data t) as E.
  { intros t Ht. rewrite znth_tab by lia. destruct (Hr t Ht) as (r & R & ->).
    apply set_chan_2; auto. }
  split; [|split].
  - split; [rewrite zlen_tab; lia|]. intros t Ht. exists (interp8 data 0 t). split; [apply interp8_byte; auto|].
    apply E; auto.
  - rewrite zlen_tab; lia.
  - intros t Ht. rewrite bc4_texel_firstn. auto.
Qed.
Lemma bc5_impl m : implements 16 16 (decode_bc5_block m) redgreen16 bc5_texel.
Proof.
  split; [apply init_redgreen|]. intros data buf Hb Hd Hr.
  eexists; split; [apply bc5_block_gen; auto using redgreen16_u32|]. destruct Hr as [Hl Hr]. rewrite Hl.
  assert (forall t, 0 <= t < 16 ->
    znth (tab 16 (fun t => set_chan 1 (set_chan 2 (znth buf t) (interp8 data 0 t)) (interp8 data 8 t))) t
    = bc5_texel data t) as E.
  { intros t Ht. rewrite znth_tab by lia. destruct (Hr t Ht) as (r & g & R & G & ->).
    rewrite set_chan_2 by auto. apply set_chan_1; auto using interp8_byte. }
  split; [|split].
  - split; [rewrite zlen_tab; lia|]. intros t Ht. exists (interp8 data 0 t), (interp8 data 8 t).
    do 2 (split; [apply interp8_byte; auto|]). apply E; auto.
  - rewrite zlen_tab; lia.
  - intros t Ht. rewrite bc5_texel_firstn. auto.
Qed.

(** ** Image decoders *)
Lemma bcn_image m bs raw bd I tex : implements bs raw bd I tex -> bs = 16 -> 0 < raw ->
  image_decoder 4 4 raw tex (block_decoder m 4 4 raw bd).
Proof. intros H -> Hr. apply block_decoder_correct with (I := I); auto; lia. Qed.

Lemma bc1_image m : image_decoder 4 4 8 bc1_texel (decode_bc1 m).
Proof. eapply bcn_image; [apply bc1_impl|reflexivity|lia]. Qed.
Lemma bc1a_image m : image_decoder 4 4 8 bc1a_texel (decode_bc1a m).
Proof. eapply bcn_image; [apply bc1a_impl|reflexivity|lia]. Qed.
Lemma bc2_image m : image_decoder 4 4 16 bc2_texel (decode_bc2 m).
Proof. eapply bcn_image; [apply bc2_impl|reflexivity|lia]. Qed.
Lemma bc3_image m : image_decoder 4 4 16 bc3_texel (decode_bc3 m).
Proof. eapply bcn_image; [apply bc3_impl|reflexivity|lia]. Qed.
Lemma bc4_image m : image_decoder 4 4 8 bc4_texel (decode_bc4 m).
Proof. eapply bcn_image; [apply bc4_impl|reflexivity|lia]. Qed.
Lemma bc5_image m : image_decoder 4 4 16 bc5_texel (decode_bc5 m).
Proof. eapply bcn_image; [apply bc5_impl|reflexivity|lia]. Qed.
Lemma atc_rgb4_image m : image_decoder 4 4 8 (atc_rgb4_texel atc_dark_code) (decode_atc_rgb4 m).
Proof. eapply bcn_image; [apply atc_rgb4_impl|reflexivity|lia]. Qed.
Lemma atc_rgba8_image m : image_decoder 4 4 16 (atc_rgba8_texel atc_dark_code) (decode_atc_rgba8 m).
Proof. eapply bcn_image; [apply atc_rgba8_impl|reflexivity|lia]. Qed.
