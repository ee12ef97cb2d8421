(** * Block contracts and image decoders of the ETC family *)
From Verif Require Import Base BaseLemmas BitLemmas ModelColor SpecImage ProofDecoder SpecBc ProofBc
  ProofBcImage ProofBlock ModelEtc SpecEtc FieldLemmas ProofEtc ProofEtc2 ProofEac.

(** ** Only the block's own bytes matter *)
Lemma etc_word_firstn n b o : 0 <= o -> o + 8 <= Z.of_nat n -> etc_word (firstn n b) o = etc_word b o.
Proof. intros. unfold etc_word. rewrite !znth_firstn by lia. auto. Qed.
Lemma eac_swapped_firstn n b o : 0 <= o -> o + 8 <= Z.of_nat n -> eac_swapped (firstn n b) o = eac_swapped b o.
Proof. intros. unfold eac_swapped. rewrite !znth_firstn by lia. auto. Qed.

Lemma etc1_firstn b t : etc1_wrap_texel (firstn (Z.to_nat 8) b) t = etc1_wrap_texel b t.
Proof. unfold etc1_wrap_texel. rewrite etc_word_firstn by lia. auto. Qed.
Lemma etc2_firstn n b o t : 0 <= o -> o + 8 <= Z.of_nat n -> etc2_texel (firstn n b) o t = etc2_texel b o t.
Proof. intros. unfold etc2_texel. rewrite etc_word_firstn by lia. auto. Qed.
Lemma etc2a_firstn b t : etc2a_code_texel (firstn (Z.to_nat 8) b) t = etc2a_code_texel b t.
Proof. unfold etc2a_code_texel. rewrite etc_word_firstn by lia. auto. Qed.
Lemma etc2_rgba8_firstn b t : etc2_rgba8_texel (firstn (Z.to_nat 16) b) t = etc2_rgba8_texel b t.
Proof. unfold etc2_rgba8_texel, eac_alpha. rewrite etc2_firstn, etc_word_firstn by lia. auto. Qed.
Lemma eacr_firstn b t : eacr_code_texel (firstn (Z.to_nat 8) b) t = eacr_code_texel b t.
Proof. unfold eacr_code_texel, eac_code_red. rewrite etc_word_firstn, eac_swapped_firstn by lia. auto. Qed.
Lemma eacr_s_firstn b t : eacr_s_code_texel (firstn (Z.to_nat 8) b) t = eacr_s_code_texel b t.
Proof. unfold eacr_s_code_texel, eac_code_red_s. rewrite etc_word_firstn, eac_swapped_firstn by lia. auto. Qed.
Lemma eacrg_firstn b t : eacrg_code_texel (firstn (Z.to_nat 16) b) t = eacrg_code_texel b t.
Proof. unfold eacrg_code_texel, eac_code_red. rewrite !etc_word_firstn, !eac_swapped_firstn by lia. auto. Qed.
Lemma eacrg_s_firstn b t : eacrg_s_code_texel (firstn (Z.to_nat 16) b) t = eacrg_s_code_texel b t.
Proof. unfold eacrg_s_code_texel, eac_code_red_s. rewrite !etc_word_firstn, !eac_swapped_firstn by lia. auto. Qed.

(** ** Contracts *)
Lemma impl_form raw bd tex :
  (forall data buf, bytes data -> raw <= zlen data -> 16 <= zlen buf ->
     bd data buf = Ok (tab 16 (tex data) ++ skipn 16 buf)) ->
  (forall b t, tex (firstn (Z.to_nat raw) b) t = tex b t) ->
  implements 16 raw bd len16 tex.
Proof.
  intros H F. apply impl_len16; [|auto]. intros data buf Hb Hd Hl. rewrite H by (auto; lia).
  rewrite skipn_all2, app_nil_r by (unfold zlen in *; lia). auto.
Qed.

Lemma etc1_impl m : implements 16 8 (decode_etc1_block m) len16 etc1_wrap_texel.
Proof. apply impl_form; [intros; apply etc1_block_ok; auto|apply etc1_firstn]. Qed.
Lemma etc2_rgb_impl m : implements 16 8 (decode_etc2_rgb_block m) len16 (fun b => etc2_texel b 0).
Proof. apply impl_form; [intros; apply etc2_rgb_block_ok; auto|intros; apply etc2_firstn; lia]. Qed.
Lemma etc2_rgba1_impl m : implements 16 8 (decode_etc2_rgba1_block m) len16 etc2a_code_texel.
Proof. apply impl_form; [intros; apply etc2_rgba1_block_ok; auto|apply etc2a_firstn]. Qed.
Lemma etc2_rgba8_impl m : implements 16 16 (decode_etc2_rgba8_block m) len16 etc2_rgba8_texel.
Proof. apply impl_form; [intros; apply etc2_rgba8_block_ok; auto|apply etc2_rgba8_firstn]. Qed.
Lemma eacr_impl m : implements 16 8 (decode_eacr_block m) len16 eacr_code_texel.
Proof. apply impl_form; [intros; apply eacr_block_ok; auto|apply eacr_firstn]. Qed.
Lemma eacr_signed_impl m : implements 16 8 (decode_eacr_signed_block m) len16 eacr_s_code_texel.
Proof. apply impl_form; [intros; apply eacr_signed_block_ok; auto|apply eacr_s_firstn]. Qed.
Lemma eacrg_impl m : implements 16 16 (decode_eacrg_block m) len16 eacrg_code_texel.
Proof. apply impl_form; [intros; apply eacrg_block_ok; auto|apply eacrg_firstn]. Qed.
Lemma eacrg_signed_impl m : implements 16 16 (decode_eacrg_signed_block m) len16 eacrg_s_code_texel.
Proof. apply impl_form; [intros; apply eacrg_signed_block_ok; auto|apply eacrg_s_firstn]. Qed.

Lemma etc1_contract m : block_exact 8 etc1_wrap_texel (decode_etc1_block m) /\ block_confined 8 (decode_etc1_block m).
Proof. apply exact_of_form. intros; apply etc1_block_ok; auto. Qed.
Lemma etc2_rgb_contract m : block_exact 8 (fun b => etc2_texel b 0) (decode_etc2_rgb_block m) /\
  block_confined 8 (decode_etc2_rgb_block m).
Proof. apply exact_of_form. intros; apply etc2_rgb_block_ok; auto. Qed.
Lemma etc2_rgba1_contract m : block_exact 8 etc2a_code_texel (decode_etc2_rgba1_block m) /\
  block_confined 8 (decode_etc2_rgba1_block m).
Proof. apply exact_of_form. intros; apply etc2_rgba1_block_ok; auto. Qed.
Lemma etc2_rgba8_contract m : block_exact 16 etc2_rgba8_texel (decode_etc2_rgba8_block m) /\
  block_confined 16 (decode_etc2_rgba8_block m).
Proof. apply exact_of_form. intros; apply etc2_rgba8_block_ok; auto. Qed.
Lemma eacr_contract m : block_exact 8 eacr_code_texel (decode_eacr_block m) /\ block_confined 8 (decode_eacr_block m).
Proof. apply exact_of_form. intros; apply eacr_block_ok; auto. Qed.
Lemma eacr_signed_contract m : block_exact 8 eacr_s_code_texel (decode_eacr_signed_block m) /\
  block_confined 8 (decode_eacr_signed_block m).
Proof. apply exact_of_form. intros; apply eacr_signed_block_ok; auto. Qed.
Lemma eacrg_contract m : block_exact 16 eacrg_code_texel (decode_eacrg_block m) /\ block_confined 16 (decode_eacrg_block m).
Proof. apply exact_of_form. intros; apply eacrg_block_ok; auto. Qed.
Lemma eacrg_signed_contract m : block_exact 16 eacrg_s_code_texel (decode_eacrg_signed_block m) /\
  block_confined 16 (decode_eacrg_signed_block m).
Proof. apply exact_of_form. intros; apply eacrg_signed_block_ok; auto. Qed.

Lemma etc1_image m : image_decoder 4 4 8 etc1_wrap_texel (decode_etc1 m).
Proof. apply (bcn_image m 16 8 _ _ _ (etc1_impl m) eq_refl); lia. Qed.
Lemma etc2_rgb_image m : image_decoder 4 4 8 (fun b => etc2_texel b 0) (decode_etc2_rgb m).
Proof. apply (bcn_image m 16 8 _ _ _ (etc2_rgb_impl m) eq_refl); lia. Qed.
Lemma etc2_rgba1_image m : image_decoder 4 4 8 etc2a_code_texel (decode_etc2_rgba1 m).
Proof. apply (bcn_image m 16 8 _ _ _ (etc2_rgba1_impl m) eq_refl); lia. Qed.
Lemma etc2_rgba8_image m : image_decoder 4 4 16 etc2_rgba8_texel (decode_etc2_rgba8 m).
Proof. apply (bcn_image m 16 16 _ _ _ (etc2_rgba8_impl m) eq_refl); lia. Qed.
Lemma eacr_image m : image_decoder 4 4 8 eacr_code_texel (decode_eacr m).
Proof. apply (bcn_image m 16 8 _ _ _ (eacr_impl m) eq_refl); lia. Qed.
Lemma eacr_signed_image m : image_decoder 4 4 8 eacr_s_code_texel (decode_eacr_signed m).
Proof. apply (bcn_image m 16 8 _ _ _ (eacr_signed_impl m) eq_refl); lia. Qed.
Lemma eacrg_image m : image_decoder 4 4 16 eacrg_code_texel (decode_eacrg m).
Proof. apply (bcn_image m 16 16 _ _ _ (eacrg_impl m) eq_refl); lia. Qed.
Lemma eacrg_signed_image m : image_decoder 4 4 16 eacrg_s_code_texel (decode_eacrg_signed m).
Proof. apply (bcn_image m 16 16 _ _ _ (eacrg_signed_impl m) eq_refl); lia. Qed.

(** ** Consequences *)
Lemma add_rgb_ext c c' d a : (forall ch, 0 <= ch < 3 -> c ch = c' ch) -> add_rgb c d a = add_rgb c' d a.
Proof. intros H. unfold add_rgb. rewrite !H by lia. auto. Qed.

Lemma etc1_valid_texel b t : etc1_valid (etc_word b 0) -> etc1_wrap_texel b t = etc1_texel b t.
Proof.
  unfold etc1_valid, etc1_wrap_texel, etc1_texel. cbv zeta. generalize (etc_word b 0); intros w.
  destruct (etc_diff w); [|reflexivity]. intros H. destruct (H eq_refl) as (O0 & O1 & O2).
  unfold etc_diff_texel. apply add_rgb_ext. intros ch Hch.
  unfold wrap_base, diff_base. destruct (etc_sub w t =? 0); auto.
  assert (overflows w ch = false) as O by (assert (ch = 0 \/ ch = 1 \/ ch = 2) as [-> | [-> | ->]] by lia; auto).
  rewrite Z.mod_small by (apply second5_range; auto). auto.
Qed.
Lemma etc1_etc2_texel b t : etc1_valid (etc_word b 0) -> etc1_texel b t = etc2_texel b 0 t.
Proof.
  unfold etc1_valid, etc1_texel, etc2_texel. cbv zeta. generalize (etc_word b 0); intros w.
  destruct (etc_diff w); cbn [negb]; [|reflexivity].
  intros H. destruct (H eq_refl) as (-> & -> & ->). cbn [negb]. reflexivity.
Qed.
Lemma etc1_exact m data outbuf : bytes data -> 8 <= zlen data -> 16 <= zlen outbuf -> Forall is_u32 outbuf ->
  etc1_valid (etc_word data 0) ->
  exists out, decode_etc1_block m data outbuf = Ok out /\ zlen out = zlen outbuf /\
    forall t, 0 <= t < 16 -> znth out t = etc1_texel data t.
Proof.
  intros Hb Hd Ho Hu Hv. destruct (proj1 (etc1_contract m) data outbuf) as (out & E & L & N); auto.
  exists out. do 2 (split; [auto|]). intros t Ht. rewrite N by auto. apply etc1_valid_texel; auto.
Qed.
Lemma etc1_etc2 m data outbuf : bytes data -> 8 <= zlen data -> 16 <= zlen outbuf ->
  etc1_valid (etc_word data 0) ->
  decode_etc1_block m data outbuf = decode_etc2_rgb_block m data outbuf.
Proof.
  intros Hb Hd Ho Hv. rewrite etc1_block_ok, etc2_rgb_block_ok by auto.
  apply ok_tab_app. intros t Ht. rewrite etc1_valid_texel, etc1_etc2_texel by auto. reflexivity.
Qed.

Lemma etc2a_color_parts w t : exists r g bl, is_byte r /\ is_byte g /\ is_byte bl /\ etc2a_color w t = rgba r g bl 255.
Proof.
  unfold etc2a_color, t_texel, h_texel, planar_texel. cbv zeta.
  destruct (overflows _ 0); [repeat match goal with |- context [if ?c then _ else _] => destruct c end; apply add_rgb_parts|].
  destruct (overflows _ 1); [apply add_rgb_parts|].
  destruct (overflows _ 2); [|apply add_rgb_parts].
  do 3 eexists. do 3 (split; [apply clamp8_byte|]). reflexivity.
Qed.
Lemma rgba1_partial m data outbuf : bytes data -> 8 <= zlen data -> 16 <= zlen outbuf -> Forall is_u32 outbuf ->
  exists out, decode_etc2_rgba1_block m data outbuf = Ok out /\ zlen out = zlen outbuf /\
    forall t, 0 <= t < 16 ->
      alpha (znth out t) = (if etc2a_clear (etc_word data 0) t then 0 else 255) /\
      (etc2a_clear (etc_word data 0) t = false -> znth out t = etc2a_texel data t).
Proof.
  intros Hb Hd Ho Hu. destruct (proj1 (etc2_rgba1_contract m) data outbuf) as (out & E & L & N); auto.
  exists out. do 2 (split; [auto|]). intros t Ht. rewrite N by auto.
  unfold etc2a_code_texel, etc2a_texel. cbv zeta.
  destruct (etc2a_color_parts (etc_word data 0) t) as (r & g & bl & R & G & B & ->).
  destruct (etc2a_clear (etc_word data 0) t).
  - split; [|discriminate]. replace (rgba r g bl 255 - 255 * 16777216) with (rgba r g bl 0) by (unfold rgba; lia).
    apply chan_rgba; auto using is_byte_0.
  - split; [|auto]. apply chan_rgba; auto using is_byte_255.
Qed.
Lemma rgba1_opaque m data outbuf : bytes data -> 8 <= zlen data -> 16 <= zlen outbuf ->
  etc_diff (etc_word data 0) = true ->
  decode_etc2_rgba1_block m data outbuf = decode_etc2_rgb_block m data outbuf.
Proof.
  intros Hb Hd Ho D. rewrite etc2_rgba1_block_ok, etc2_rgb_block_ok by auto.
  apply ok_tab_app. intros t Ht.
  unfold etc2a_code_texel, etc2a_clear, etc2_texel, etc2a_color, etc_diff_texel. cbv zeta. rewrite D. cbn [negb andb]. reflexivity.
Qed.

Lemma eac_alpha_byte b o t : is_byte (eac_alpha b o t).
Proof. apply clamp8_byte. Qed.
Lemma rgba8_compose m data outbuf :
  bytes data -> 16 <= zlen data -> 16 <= zlen outbuf -> Forall is_u32 outbuf ->
  exists rgb out, decode_etc2_rgb_block m (skipn 8 data) outbuf = Ok rgb /\
    decode_etc2_rgba8_block m data outbuf = Ok out /\ zlen out = zlen outbuf /\
    forall t, 0 <= t < 16 ->
      red (znth out t) = red (znth rgb t) /\ green (znth out t) = green (znth rgb t) /\
      blue (znth out t) = blue (znth rgb t) /\ alpha (znth out t) = eac_alpha data 0 t.
Proof.
  intros Hb Hd Ho Hu.
  destruct (proj1 (etc2_rgb_contract m) (skipn 8 data) outbuf) as (rgb & E & L & N); auto using bytes_skipn.
  { rewrite zlen_skipn; lia. }
  destruct (proj1 (etc2_rgba8_contract m) data outbuf) as (out & E' & L' & N'); auto.
  exists rgb, out. do 3 (split; [auto|]). intros t Ht. rewrite N, N' by auto.
  destruct (etc2_rgba8_texel_parts data t) as (r & g & bl & R & G & B & E1 & ->).
  unfold etc2_texel in *. rewrite etc_word_shift, E1.
  destruct (chan_rgba r g bl 255) as (-> & -> & -> & _); auto using is_byte_255.
  apply chan_rgba; auto using eac_alpha_byte.
Qed.

(** EAC: right wherever the byte-reversed block selects the same modifier index. *)
Lemma eac_red_same b o t : eac_index (eac_swapped b o) t = eac_index (etc_word b o) t ->
  eac_code_red b o t = eac_red b o t.
Proof. intros H. unfold eac_code_red, eac_red. cbv zeta. rewrite H. auto. Qed.
Lemma eac_red_s_same b o t : eac_index (eac_swapped b o) t = eac_index (etc_word b o) t ->
  eac_code_red_s b o t = eac_red_s b o t.
Proof.
  intros H. unfold eac_code_red_s, eac_red_s, eac_value11s, clamp_to. cbv zeta. rewrite H.
  set (v := signed8 _ * 8 + _). clearbody v. dlia.
Qed.

Lemma eac_bytes b o t : is_byte (eac_code_red b o t) /\ is_byte (eac_code_red_s b o t).
Proof. apply eac_red_bytes. Qed.

Definition same_index (b : list Z) (o t : Z) : Prop :=
  eac_index (eac_swapped b o) t = eac_index (etc_word b o) t.

Lemma eac_r_partial m data outbuf (sg : bool) : bytes data -> 8 <= zlen data -> 16 <= zlen outbuf -> Forall is_u32 outbuf ->
  exists out, (if sg then decode_eacr_signed_block m data outbuf else decode_eacr_block m data outbuf) = Ok out /\
    zlen out = zlen outbuf /\
    forall t, 0 <= t < 16 ->
      green (znth out t) = 0 /\ blue (znth out t) = 0 /\ alpha (znth out t) = 255 /\
      (same_index data 0 t -> red (znth out t) = if sg then eac_red_s data 0 t else eac_red data 0 t).
Proof.
  intros Hb Hd Ho Hu. destruct sg.
  - destruct (proj1 (eacr_signed_contract m) data outbuf) as (out & E & L & N); auto.
    exists out. do 2 (split; [auto|]). intros t Ht. rewrite N by auto. unfold eacr_s_code_texel.
    destruct (eac_bytes data 0 t) as [B1 B2].
    destruct (chan_rgba (eac_code_red_s data 0 t) 0 0 255) as (-> & -> & -> & ->); auto using is_byte_0, is_byte_255.
    do 3 (split; [auto|]). apply eac_red_s_same.
  - destruct (proj1 (eacr_contract m) data outbuf) as (out & E & L & N); auto.
    exists out. do 2 (split; [auto|]). intros t Ht. rewrite N by auto. unfold eacr_code_texel.
    destruct (eac_bytes data 0 t) as [B1 B2].
    destruct (chan_rgba (eac_code_red data 0 t) 0 0 255) as (-> & -> & -> & ->); auto using is_byte_0, is_byte_255.
    do 3 (split; [auto|]). apply eac_red_same.
Qed.

Lemma eac_rg_partial m data outbuf (sg : bool) : bytes data -> 16 <= zlen data -> 16 <= zlen outbuf -> Forall is_u32 outbuf ->
  exists out, (if sg then decode_eacrg_signed_block m data outbuf else decode_eacrg_block m data outbuf) = Ok out /\
    zlen out = zlen outbuf /\
    forall t, 0 <= t < 16 ->
      blue (znth out t) = 0 /\ alpha (znth out t) = 255 /\
      (same_index data 0 t -> red (znth out t) = if sg then eac_red_s data 0 t else eac_red data 0 t) /\
      (same_index data 8 t -> green (znth out t) = if sg then eac_red_s data 8 t else eac_red data 8 t).
Proof.
  intros Hb Hd Ho Hu. destruct sg.
  - destruct (proj1 (eacrg_signed_contract m) data outbuf) as (out & E & L & N); auto.
    exists out. do 2 (split; [auto|]). intros t Ht. rewrite N by auto. unfold eacrg_s_code_texel.
    destruct (eac_bytes data 0 t) as [B1 B2]. destruct (eac_bytes data 8 t) as [B3 B4].
    destruct (chan_rgba (eac_code_red_s data 0 t) (eac_code_red_s data 8 t) 0 255) as (-> & -> & -> & ->); auto using is_byte_0, is_byte_255.
    do 2 (split; [auto|]). split; apply eac_red_s_same.
  - destruct (proj1 (eacrg_contract m) data outbuf) as (out & E & L & N); auto.
    exists out. do 2 (split; [auto|]). intros t Ht. rewrite N by auto. unfold eacrg_code_texel.
    destruct (eac_bytes data 0 t) as [B1 B2]. destruct (eac_bytes data 8 t) as [B3 B4].
    destruct (chan_rgba (eac_code_red data 0 t) (eac_code_red data 8 t) 0 255) as (-> & -> & -> & ->); auto using is_byte_0, is_byte_255.
    do 2 (split; [auto|]). split; apply eac_red_same.
Qed.
