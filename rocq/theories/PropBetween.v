(** * C80: interpolated channels stay between the end points *)
From Verif Require Import Base BaseLemmas ModelColor SpecImage SpecBc SpecBc7 SpecPvrtc SpecPvrShift SpecCut ModelBc ModelBc7 ModelPvrtc SpecBetween ProofChannels ProofPvrInfo ProofPvrtc ProofBetween
  PropImage PropBc PropBc7 PropPvrtc.

Theorem C80_bc1 m c : 0 <= c < 3 -> stays_between 8 c (end565 0 c) (end565 2 c) (black3 0) (decode_bc1 m) /\ stays_between 8 c (end565 0 c) (end565 2 c) (black3 0) (decode_bc1a m).
Proof.
  intros Hc. split.
  - apply (stays 8 c bc1_texel); [lia|apply C06_bc1_image_exact|]. intros b t B _ _. exact (bc1_between b 0 t 255 c B byte_255 Hc).
  - apply (stays 8 c bc1a_texel); [lia|apply C07_bc1a_image_exact|]. intros b t B _ _. refine (bc1_between b 0 t _ c B _ Hc). destruct (_ && _); [exact byte_0|exact byte_255].
Qed.
Theorem C80_bc2 m c : 0 <= c < 3 -> stays_between 16 c (end565 8 c) (end565 10 c) (black3 8) (decode_bc2 m).
Proof. intros Hc. apply (stays 16 c bc2_texel); [lia|apply C08_bc2_image_exact|]. intros b t B _ _. exact (bc1_between b 8 t _ c B (proj1 (bc2_alpha_byte b t B)) Hc). Qed.
Theorem C80_bc3 m : (forall c, 0 <= c < 3 -> stays_between 16 c (end565 8 c) (end565 10 c) (black3 8) (decode_bc3 m)) /\
  stays_between 16 3 (byte_end 0) (byte_end 1) (limit67 0) (decode_bc3 m).
Proof.
  split.
  - intros c Hc. apply (stays 16 c bc3_texel); [lia|apply C09_bc3_image_exact|]. intros b t B _ _. exact (bc1_between b 8 t _ c B (interp8_byte b 0 t B) Hc).
  - apply (stays 16 3 bc3_texel); [lia|apply C09_bc3_image_exact|]. intros b t B _ _. destruct (bc1_bytes b 8 t B) as (R & G & Bl). unfold bc3_texel.
    rewrite channels_of by (first [assumption|apply interp8_byte, B|lia]). exact (interp_between b 0 t).
Qed.
Theorem C80_bc4 m : stays_between 8 0 (byte_end 0) (byte_end 1) (limit67 0) (decode_bc4 m).
Proof.
  apply (stays 8 0 bc4_texel); [lia|apply C10_bc4_image_exact|]. intros b t B _ _. unfold bc4_texel.
  rewrite channels_of by (first [exact byte_0|exact byte_255|apply interp8_byte, B|lia]). exact (interp_between b 0 t).
Qed.
Theorem C80_bc5 m : stays_between 16 0 (byte_end 0) (byte_end 1) (limit67 0) (decode_bc5 m) /\ stays_between 16 1 (byte_end 8) (byte_end 9) (limit67 8) (decode_bc5 m).
Proof.
  split.
  - apply (stays 16 0 bc5_texel); [lia|apply C10_bc5_image_exact|]. intros b t B _ _. unfold bc5_texel.
    rewrite channels_of by (first [exact byte_0|exact byte_255|apply interp8_byte, B|lia]). exact (interp_between b 0 t).
  - apply (stays 16 1 bc5_texel); [lia|apply C10_bc5_image_exact|]. intros b t B _ _. unfold bc5_texel.
    rewrite channels_of by (first [exact byte_0|exact byte_255|apply interp8_byte, B|lia]). exact (interp_between b 8 t).
Qed.
Theorem C80_atc m c : 0 <= c < 3 -> stays_between 8 c (end555 0 c) (end565 2 c) (mode_bit 0) (decode_atc_rgb4 m) /\ stays_between 16 c (end555 8 c) (end565 10 c) (mode_bit 8) (decode_atc_rgba8 m).
Proof.
  intros Hc. split.
  - apply (stays 8 c (atc_rgb4_texel atc_dark_code)); [lia|apply C17_atc_rgb_image_code|]. intros b t B _ _. exact (atc_bytes b 0 t 255 c B byte_255 Hc).
  - apply (stays 16 c (atc_rgba8_texel atc_dark_code)); [lia|apply C18_atc_rgba_image_exact|]. intros b t B _ _. exact (atc_bytes b 8 t _ c B (interp8_byte b 0 t B) Hc).
Qed.
Theorem C80_bc7 m c : 0 <= c < 4 -> stays_between 16 c (end7 0 c) (end7 1 c) reserved7 (decode_bc7 m).
Proof. intros Hc. apply (stays 16 c bc7_texel); [lia|apply C12_bc7_image_exact|]. intros b t B _ _. exact (bc7_between b t c Hc). Qed.

Theorem C80_pvrtc_4bpp m : pvr_between 4 clear4_at (decode_pvrtc_4bpp m).
Proof.
  apply (pvr_within 4 pvr4_pixel mod4_at); [left; reflexivity|apply C28_pvrtc_4bpp_exact| |reflexivity].
  intros blk nbx nby x y. apply mod4_range. clear. Z.to_euclidean_division_equations; lia.
Qed.
Theorem C80_pvrtc_2bpp m : pvr_between 8 clear2_at (decode_pvrtc_2bpp m).
Proof. apply (pvr_within 8 pvr2_pixel mod2); [right; reflexivity|apply C46_pvrtc_2bpp_exact|exact mod2_range|reflexivity]. Qed.

(** A black texel of a three-colour block is an exception indeed. *)
Theorem C80_black_needed : exists b t, bytes b /\ zlen b = 8 /\ 0 <= t < 16 /\ black3 0 b t /\ ~ between (end565 0 0 b t) (end565 2 0 b t) (channel 0 (bc1_texel b t)).
Proof. exists [255; 255; 255; 255; 255; 255; 255; 255], 0. vm_compute. repeat split; try discriminate; try reflexivity; [repeat constructor; discriminate|]. intros [H _]. exact (H eq_refl). Qed.

(** The second pixel of [two_bc1] is a mix of white and black. *)
Example C80_ex m : exists image', decode_bc1 m two_bc1 8 4 (repeat 7 32) = Ok (Done, image') /\
  between (end565 0 1 two_bc1 1) (end565 2 1 two_bc1 1) (channel 1 (znth image' 1)) /\ end565 0 1 two_bc1 1 = 255 /\ end565 2 1 two_bc1 1 = 0 /\ channel 1 (znth image' 1) = 170.
Proof.
  destruct m; eexists; (split; [vm_compute; reflexivity|]); (split; [|vm_compute; auto]); vm_compute; split; discriminate.
Qed.
(** Red of two texels of different subsets of a BC7 block of mode 1. *)
Example C80_ex7 m : exists image', sized 4 4 16 bc7_m1 4 4 (repeat 0 16) /\ decode_bc7 m bc7_m1 4 4 (repeat 0 16) = Ok (Done, image') /\
  between 52 241 (channel 0 (znth image' 0)) /\ between 4 60 (channel 0 (znth image' 1)) /\ channel 0 (znth image' 0) = 79.
Proof.
  assert (sized 4 4 16 bc7_m1 4 4 (repeat 0 16)) as S by (split; [repeat constructor; unfold is_byte; lia|vm_compute; intuition discriminate]).
  assert (exists image', decode_bc7 m bc7_m1 4 4 (repeat 0 16) = Ok (Done, image') /\ channel 0 (znth image' 0) = 79) as (image' & E & V) by (destruct m; eexists; (split; [vm_compute; reflexivity|vm_compute; reflexivity])).
  exists image'. split; [exact S|]. split; [exact E|].
  destruct (C80_bc7 m 0 ltac:(lia) bc7_m1 4 4 (repeat 0 16) image' S E 0 0 ltac:(lia) ltac:(lia)) as [X|X]; [exfalso; vm_compute in X; discriminate|].
  destruct (C80_bc7 m 0 ltac:(lia) bc7_m1 4 4 (repeat 0 16) image' S E 1 0 ltac:(lia) ltac:(lia)) as [Y|Y]; [exfalso; vm_compute in Y; discriminate|].
  split; [exact X|]. split; [exact Y|exact V].
Qed.
(** Green of [pvr_two]: the end points are 17, 14, 29 and 1. *)
Example C80_ex_pvr m : exists image', decode_pvrtc_4bpp m pvr_two 8 4 (repeat 0 33) = Ok (Done, image') /\
  forall x y, 0 <= x < 8 -> 0 <= y < 4 -> 8 <= channel 1 (znth image' (y * 8 + x)) <= 239.
Proof.
  assert (pvr_sane 4 pvr_two 8 4 (repeat 0 33)) as S by (split; [repeat constructor; unfold is_byte; lia|vm_compute; intuition discriminate]).
  destruct (C80_pvrtc_4bpp m pvr_two 8 4 (repeat 0 33) 1 0 S ltac:(lia) ltac:(lia) eq_refl eq_refl ltac:(vm_compute; discriminate) ltac:(vm_compute; discriminate)) as (image' & E & P).
  exists image'. split; [exact E|]. intros x y X Y. destruct (P x y 1 1 29 X Y ltac:(lia)) as [(F & _)|K]; [|discriminate F|exact K].
  intros i j _ _. pose proof (Z.mod_pos_bound ((x - 4 / 2) / 4 + i) (2 ^ 1) ltac:(lia)) as I1. rewrite (Z.mod_1_r ((y - 2) / 4 + j) : _ mod 2 ^ 0 = 0). change (2 ^ 1) with 2 in *.
  assert (((x - 4 / 2) / 4 + i) mod 2 = 0 \/ ((x - 4 / 2) / 4 + i) mod 2 = 1) as [->| ->] by lia; vm_compute; intuition discriminate.
Qed.

Print Assumptions C80_bc1.
Print Assumptions C80_bc2.
Print Assumptions C80_bc3.
Print Assumptions C80_bc4.
Print Assumptions C80_bc5.
Print Assumptions C80_atc.
Print Assumptions C80_bc7.
Print Assumptions C80_pvrtc_4bpp.
Print Assumptions C80_pvrtc_2bpp.
Print Assumptions C80_black_needed.
