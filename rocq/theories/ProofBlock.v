(** * Block contracts from the exact forms *)
From Verif Require Import Base BaseLemmas BitLemmas ModelColor SpecImage SpecBc ModelBc ProofBc ProofBcImage.

Lemma exact_of_form raw tex bd :
  (forall data outbuf, bytes data -> raw <= zlen data -> 16 <= zlen outbuf -> Forall is_u32 outbuf ->
     bd data outbuf = Ok (tab 16 (tex data) ++ skipn 16 outbuf)) ->
  block_exact raw tex bd /\ block_confined raw bd.
Proof.
  intros H. split; intros data outbuf Hb Hd Ho Hu; (eexists; split; [apply H; auto|]).
  - split; [change 16%nat with (Z.to_nat 16); apply zlen_tab_app; lia|].
    intros t Ht. apply znth_tab_app; auto.
  - split; [change 16%nat with (Z.to_nat 16); apply zlen_tab_app; lia|].
    intros t Ht. rewrite znth_app2 by (rewrite zlen_tab; lia). rewrite zlen_tab, znth_skipn by lia. f_equal; lia.
Qed.

Lemma exact_of_gen raw tex bd other :
  (forall data outbuf, bytes data -> raw <= zlen data -> 16 <= zlen outbuf -> Forall is_u32 outbuf ->
     bd data outbuf = Ok (tab (zlen outbuf) (fun t => if t <? 16 then tex data t else other data outbuf t))) ->
  block_exact raw tex bd.
Proof.
  intros H data outbuf Hb Hd Ho Hu. eexists; split; [apply H; auto|].
  split; [rewrite zlen_tab; lia|]. intros t Ht. rewrite znth_tab by lia. destruct (Z.ltb_spec t 16); auto; lia.
Qed.

Lemma bc1_contract m : block_exact 8 bc1_texel (decode_bc1_block m) /\ block_confined 8 (decode_bc1_block m).
Proof. apply exact_of_form. intros; apply bc1_block_ok; auto. Qed.
Lemma bc1a_contract m : block_exact 8 bc1a_texel (decode_bc1a_block m) /\ block_confined 8 (decode_bc1a_block m).
Proof. apply exact_of_form. intros; apply bc1a_block_ok; auto. Qed.
Lemma bc2_contract m : block_exact 16 bc2_texel (decode_bc2_block m) /\ block_confined 16 (decode_bc2_block m).
Proof. apply exact_of_form. intros; apply bc2_block_ok; auto. Qed.
Lemma bc3_contract m : block_exact 16 bc3_texel (decode_bc3_block m).
Proof. eapply exact_of_gen. intros; apply bc3_block_gen; auto. Qed.
Lemma atc_rgb4_contract m : block_exact 8 (atc_rgb4_texel atc_dark_code) (decode_atc_rgb4_block m) /\
  block_confined 8 (decode_atc_rgb4_block m).
Proof. apply exact_of_form. intros; apply atc_rgb4_block_ok; auto. Qed.
Lemma atc_rgba8_contract m : block_exact 16 (atc_rgba8_texel atc_dark_code) (decode_atc_rgba8_block m).
Proof. eapply exact_of_gen. intros; apply atc_rgba8_block_gen; auto. Qed.

Lemma chan_rgba r g b a : is_byte r -> is_byte g -> is_byte b -> is_byte a ->
  red (rgba r g b a) = r /\ green (rgba r g b a) = g /\ blue (rgba r g b a) = b /\ alpha (rgba r g b a) = a.
Proof. unfold is_byte, red, green, blue, alpha, rgba; intros. repeat split; dlia. Qed.

Lemma rgba_chans p : is_u32 p -> p = rgba (red p) (green p) (blue p) (alpha p).
Proof. unfold is_u32, rgba, red, green, blue, alpha; intros. dlia. Qed.

Lemma chans_byte p : is_byte (red p) /\ is_byte (green p) /\ is_byte (blue p) /\ is_byte (alpha p).
Proof. unfold is_byte, red, green, blue, alpha. repeat split; apply Z.mod_pos_bound; lia. Qed.

(** BC1A against BC1 *)
Lemma bc1a_vs_bc1 b t : bytes b -> 0 <= t < 16 ->
  (index2 b 4 t = 3 /\ le16 b 0 <= le16 b 2 -> bc1a_texel b t = 0) /\
  (~ (index2 b 4 t = 3 /\ le16 b 0 <= le16 b 2) ->
     bc1a_texel b t = bc1_texel b t /\ alpha (bc1a_texel b t) = 255).
Proof.
  intros Hb Ht. unfold bc1a_texel, bc1_texel.
  destruct (bc1_parts_byte b 0 t Hb) as (R & G & B).
  unfold bc1_four. change (0 + 2) with 2.
  destruct (Z.ltb_spec (le16 b 2) (le16 b 0)) as [L|L]; cbn [negb andb].
  - split; [lia|]. intros _. split; [auto|]. apply chan_rgba; auto.
  - destruct (Z.eqb_spec (index2 b 4 t) 3) as [E|E]; cbn [andb].
    + split; [|intros []; auto]. intros _.
      unfold bc1_r, bc1_g, bc1_b, bc1_four. change (0 + 2) with 2. change (0 + 4) with 4. rewrite E.
      destruct (Z.ltb_spec (le16 b 2) (le16 b 0)); [lia|]. reflexivity.
    + split; [intros []; lia|]. intros _. split; [auto|]. apply chan_rgba; auto.
Qed.

Definition set_red (p v : Z) : Z := rgba v (green p) (blue p) (alpha p).
Definition set_green (p v : Z) : Z := rgba (red p) v (blue p) (alpha p).

Lemma set_chan_red p v : is_u32 p -> set_chan 2 p v = set_red p v.
Proof.
  intros H. rewrite (rgba_chans p H) at 1. destruct (chans_byte p) as (R & G & B & A).
  rewrite set_chan_2 by auto. reflexivity.
Qed.
Lemma set_chan_green p v : is_u32 p -> set_chan 1 p v = set_green p v.
Proof.
  intros H. rewrite (rgba_chans p H) at 1. destruct (chans_byte p) as (R & G & B & A).
  rewrite set_chan_1 by auto. reflexivity.
Qed.

Lemma u32_znth l t : Forall is_u32 l -> 0 <= t < zlen l -> is_u32 (znth l t).
Proof. intros H Ht. rewrite Forall_forall in H. apply H. unfold znth. apply nth_In. unfold zlen in *; lia. Qed.

Lemma bc4_block_chan m data outbuf : bytes data -> 8 <= zlen data -> Forall is_u32 outbuf ->
  exists out, decode_bc4_block m data outbuf = Ok out /\ zlen out = zlen outbuf /\
    forall t, 0 <= t < zlen outbuf ->
      red (znth out t) = interp8 data 0 t /\ green (znth out t) = green (znth outbuf t) /\
      blue (znth out t) = blue (znth outbuf t) /\ alpha (znth out t) = alpha (znth outbuf t).
Proof.
  intros Hb Hd Hu. eexists; split; [apply bc4_block_gen; auto|].
  pose proof (zlen_nonneg outbuf). split; [rewrite zlen_tab; lia|].
  intros t Ht. rewrite znth_tab by lia. rewrite set_chan_red by (apply u32_znth; auto).
  destruct (chans_byte (znth outbuf t)) as (R & G & B & A). apply chan_rgba; auto using interp8_byte.
Qed.

Lemma bc5_block_chan m data outbuf : bytes data -> 16 <= zlen data -> Forall is_u32 outbuf ->
  exists out, decode_bc5_block m data outbuf = Ok out /\ zlen out = zlen outbuf /\
    forall t, 0 <= t < zlen outbuf ->
      red (znth out t) = interp8 data 0 t /\ green (znth out t) = interp8 data 8 t /\
      blue (znth out t) = blue (znth outbuf t) /\ alpha (znth out t) = alpha (znth outbuf t).
Proof.
  intros Hb Hd Hu. eexists; split; [apply bc5_block_gen; auto|].
  pose proof (zlen_nonneg outbuf). split; [rewrite zlen_tab; lia|].
  intros t Ht. rewrite znth_tab by lia. pose proof (u32_znth _ _ Hu Ht) as Hp.
  rewrite set_chan_red by auto.
  destruct (chans_byte (znth outbuf t)) as (R & G & B & A).
  unfold set_red. rewrite set_chan_1 by auto using interp8_byte.
  apply chan_rgba; auto using interp8_byte.
Qed.

(** ATC against the format *)
Lemma atc_rgb4_std m data outbuf :
  bytes data -> 8 <= zlen data -> 16 <= zlen outbuf -> Forall is_u32 outbuf ->
  exists out, decode_atc_rgb4_block m data outbuf = Ok out /\ zlen out = zlen outbuf /\
    forall t, 0 <= t < 16 -> (atc_mode data 0 = false \/ index2 data 4 t <> 1) ->
      znth out t = atc_rgb4_texel atc_dark_std data t.
Proof.
  intros Hb Hd Ho Hu. destruct (proj1 (atc_rgb4_contract m) data outbuf Hb Hd Ho Hu) as (out & E & L & N).
  exists out. split; [auto|]. split; [auto|]. intros t Ht H. rewrite N by auto.
  unfold atc_rgb4_texel, atc_rgb, atc_mix. change (0 + 4) with 4.
  destruct H as [->|H]; [reflexivity|].
  destruct (atc_mode data 0); [|reflexivity].
  destruct (index2 data 4 t =? 0); [reflexivity|].
  destruct (Z.eqb_spec (index2 data 4 t) 1); [contradiction|reflexivity].
Qed.

Lemma atc_rgba8_compose m data outbuf :
  bytes data -> 16 <= zlen data -> 16 <= zlen outbuf -> Forall is_u32 outbuf ->
  exists rgb out, decode_atc_rgb4_block m (skipn 8 data) outbuf = Ok rgb /\
    decode_atc_rgba8_block m data outbuf = Ok out /\ zlen out = zlen outbuf /\
    forall t, 0 <= t < 16 ->
      red (znth out t) = red (znth rgb t) /\ green (znth out t) = green (znth rgb t) /\
      blue (znth out t) = blue (znth rgb t) /\ alpha (znth out t) = interp8 data 0 t.
Proof.
  intros Hb Hd Ho Hu.
  destruct (proj1 (atc_rgb4_contract m) (skipn 8 data) outbuf) as (rgb & E & L & N); auto.
  { rewrite zlen_skipn; lia. }
  destruct (atc_rgba8_contract m data outbuf) as (out & E' & L' & N'); auto.
  exists rgb, out. do 3 (split; [auto|]). intros t Ht. rewrite N, N' by auto.
  unfold atc_rgb4_texel, atc_rgba8_texel. rewrite atc_shift by auto.
  destruct (atc_rgb_parts atc_dark_code data 8 t 255 Hb is_byte_255 atc_dark_code_byte)
    as (r & g & bl & R & G & B & EE). rewrite !EE.
  destruct (chan_rgba r g bl 255) as (-> & -> & -> & _); auto.
  destruct (chan_rgba r g bl (interp8 data 0 t)) as (-> & -> & -> & ->); auto using interp8_byte.
Qed.
