(** * C79: compressed pictures turned upside down *)
From Verif Require Import Base BaseLemmas ModelColor SpecImage SpecFormats SpecBc ModelBc SpecCut SpecFlip ProofCut ProofFlip PropImage PropBc.

Theorem C79_bc1 m : flips 8 flip_colour (decode_bc1 m).
Proof. apply (flip_image 8 bc1_texel); [lia|apply C06_bc1_image_exact|exact flip_bc1]. Qed.
Theorem C79_bc1a m : flips 8 flip_colour (decode_bc1a m).
Proof. apply (flip_image 8 bc1a_texel); [lia|apply C07_bc1a_image_exact|exact flip_bc1a]. Qed.
Theorem C79_bc2 m : flips 16 (flip_halves flip_alpha flip_colour) (decode_bc2 m).
Proof. apply (flip_image 16 bc2_texel); [lia|apply C08_bc2_image_exact|exact flip_bc2]. Qed.
Theorem C79_bc3 m : flips 16 (flip_halves flip_ramp flip_colour) (decode_bc3 m).
Proof. apply (flip_image 16 bc3_texel); [lia|apply C09_bc3_image_exact|exact flip_bc3]. Qed.
Theorem C79_bc4 m : flips 8 flip_ramp (decode_bc4 m).
Proof. apply (flip_image 8 bc4_texel); [lia|apply C10_bc4_image_exact|exact flip_bc4]. Qed.
Theorem C79_bc5 m : flips 16 (flip_halves flip_ramp flip_ramp) (decode_bc5 m).
Proof. apply (flip_image 16 bc5_texel); [lia|apply C10_bc5_image_exact|exact flip_bc5]. Qed.
Theorem C79_atc_rgb m : flips 8 flip_colour (decode_atc_rgb4 m).
Proof. apply (flip_image 8 (atc_rgb4_texel atc_dark_code)); [lia|apply C17_atc_rgb_image_code|apply flip_atc]. Qed.
Theorem C79_atc_rgba m : flips 16 (flip_halves flip_ramp flip_colour) (decode_atc_rgba8 m).
Proof. apply (flip_image 16 (atc_rgba8_texel atc_dark_code)); [lia|apply C18_atc_rgba_image_exact|apply flip_atca]. Qed.

(** Two BC4 blocks below each other, three pixels wide, with a different index in
    every texel of the first column. *)
Definition tall_bc4 : list Z := [200; 100; 1; 32; 2; 3; 64; 4; 10; 250; 5; 96; 6; 7; 0; 1].
Example C79_ex m : exists image' other', sized 4 4 8 tall_bc4 3 8 (repeat 7 24) /\ decode_bc4 m tall_bc4 3 8 (repeat 7 24) = Ok (Done, image') /\
  decode_bc4 m (flip_data 8 flip_ramp 1 2 tall_bc4) 3 8 (repeat 9 24) = Ok (Done, other') /\
  (forall x y, 0 <= x < 3 -> 0 <= y < 8 -> znth other' (y * 3 + x) = znth image' ((7 - y) * 3 + x)) /\ other' <> image' /\
  flip_data 8 flip_ramp 1 2 tall_bc4 <> tall_bc4.
Proof.
  assert (sized 4 4 8 tall_bc4 3 8 (repeat 7 24)) as S by (split; [repeat constructor; unfold is_byte; lia|vm_compute; intuition discriminate]).
  assert (exists image', decode_bc4 m tall_bc4 3 8 (repeat 7 24) = Ok (Done, image') /\ znth image' 0 <> znth image' 21) as (image' & E & N) by (destruct m; eexists; (split; [vm_compute; reflexivity|vm_compute; discriminate])).
  destruct (C79_bc4 m tall_bc4 3 2 (repeat 7 24) image' (repeat 9 24) S ltac:(lia) E ltac:(vm_compute; discriminate) ltac:(vm_compute; reflexivity)) as (other' & E' & P).
  exists image', other'. split; [exact S|]. split; [exact E|]. split; [exact E'|]. split; [exact P|]. split; [|vm_compute; discriminate].
  intros ->. apply N. exact (P 0 0 ltac:(lia) ltac:(lia)).
Qed.

Print Assumptions C79_bc1.
Print Assumptions C79_bc1a.
Print Assumptions C79_bc2.
Print Assumptions C79_bc3.
Print Assumptions C79_bc4.
Print Assumptions C79_bc5.
Print Assumptions C79_atc_rgb.
Print Assumptions C79_atc_rgba.
