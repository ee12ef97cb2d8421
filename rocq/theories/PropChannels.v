(** * C78: the channels a format has *)
From Verif Require Import Base BaseLemmas ModelColor SpecImage SpecBc SpecEtc ModelBc ModelEtc SpecFormats SpecCut SpecChannels ProofChannels PropImage PropBc PropEtc.

(** Formats without alpha. *)
Theorem C78_opaque m : every_pixel 8 (decode_bc1 m) opaque /\ every_pixel 8 (decode_atc_rgb4 m) opaque /\
  every_pixel 8 (decode_etc1 m) opaque /\ every_pixel 8 (decode_etc2_rgb m) opaque.
Proof.
  split; [|split; [|split]].
  - apply (pixels 8 _ _ _ ltac:(lia) (C06_bc1_image_exact m)). intros b t H Ht. exact (bc1_ok b 0 t 255 H byte_255).
  - apply (pixels 8 _ _ _ ltac:(lia) (C17_atc_rgb_image_code m)). intros b t H Ht. exact (atc_ok b 0 t 255 H byte_255).
  - apply (pixels 8 _ _ _ ltac:(lia) (C19_etc1_image_exact m)). intros b t _ _. exact (etc1_ok b t).
  - apply (pixels 8 _ _ _ ltac:(lia) (C20_etc2_rgb_image_exact m)). intros b t _ _. exact (etc2_ok b 0 t).
Qed.
(** Formats with one or two channels. *)
Theorem C78_red m : every_pixel 8 (decode_bc4 m) red_only /\ every_pixel 8 (decode_eacr m) red_only /\ every_pixel 8 (decode_eacr_signed m) red_only.
Proof.
  split; [|split].
  - apply (pixels 8 _ _ _ ltac:(lia) (C10_bc4_image_exact m)). intros b t H Ht. apply red_ok, interp8_byte, H.
  - apply (pixels 8 _ _ _ ltac:(lia) (C24_eac_r_image_code m)). intros b t H Ht. apply red_ok, red_byte.
  - apply (pixels 8 _ _ _ ltac:(lia) (C24_eac_r_signed_image_code m)). intros b t H Ht. apply red_ok, red_s_byte.
Qed.
Theorem C78_red_green m : every_pixel 16 (decode_bc5 m) red_green_only /\ every_pixel 16 (decode_eacrg m) red_green_only /\ every_pixel 16 (decode_eacrg_signed m) red_green_only.
Proof.
  split; [|split].
  - apply (pixels 16 _ _ _ ltac:(lia) (C10_bc5_image_exact m)). intros b t H Ht. apply red_green_ok; apply interp8_byte, H.
  - apply (pixels 16 _ _ _ ltac:(lia) (C24_eac_rg_image_code m)). intros b t H Ht. apply red_green_ok; apply red_byte.
  - apply (pixels 16 _ _ _ ltac:(lia) (C24_eac_rg_signed_image_code m)). intros b t H Ht. apply red_green_ok; apply red_s_byte.
Qed.
(** Formats with one bit of alpha, and with four. *)
Theorem C78_punched m : every_pixel 8 (decode_bc1a m) punched /\ every_pixel 8 (decode_etc2_rgba1 m) punched.
Proof.
  split.
  - apply (pixels 8 _ _ _ ltac:(lia) (C07_bc1a_image_exact m)). intros b t H _. exact (bc1a_ok b t H).
  - apply (pixels 8 _ _ _ ltac:(lia) (C22_etc2_rgba1_image_code m)). intros b t _ _. exact (etc2a_ok b t).
Qed.
Theorem C78_bc2 m : every_pixel 16 (decode_bc2 m) alpha_16.
Proof.
  apply (pixels 16 _ _ _ ltac:(lia) (C08_bc2_image_exact m)). intros b t H Ht. destruct (bc2_alpha_byte b t H) as [B D]. destruct (bc1_ok b 8 t _ H B) as [U A].
  split; [exact U|]. unfold alpha_16, bc2_texel. rewrite A. exact D.
Qed.

(** Two BC1A blocks, the second with clear and opaque pixels. *)
Example C78_ex m : exists image', sized 4 4 8 two_bc1 5 4 (repeat 7 20) /\ decode_bc1a m two_bc1 5 4 (repeat 7 20) = Ok (Done, image') /\
  punched (znth image' 4) /\ punched (znth image' 19) /\ alpha (znth image' 4) = 255 /\ alpha (znth image' 19) = 0.
Proof.
  assert (sized 4 4 8 two_bc1 5 4 (repeat 7 20)) as S by (split; [repeat constructor; unfold is_byte; lia|vm_compute; intuition discriminate]).
  eexists. split; [exact S|]. split; [destruct m; vm_compute; reflexivity|]. unfold punched. vm_compute. auto.
Qed.
Print Assumptions C78_opaque.
Print Assumptions C78_red.
Print Assumptions C78_red_green.
Print Assumptions C78_punched.
Print Assumptions C78_bc2.
