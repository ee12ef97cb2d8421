(** * C82: rearranged compressed pictures *)
From Verif Require Import Base BaseLemmas ModelColor SpecImage SpecFormats SpecBc ModelBc SpecCut SpecArrange ProofArrange PropImage PropBc.

Theorem C82_bc1 m : arranges 8 colour_from (decode_bc1 m).
Proof. apply (arrange_image 8 bc1_texel); [lia|apply C06_bc1_image_exact|apply from_bc1]. Qed.
Theorem C82_bc1a m : arranges 8 colour_from (decode_bc1a m).
Proof. apply (arrange_image 8 bc1a_texel); [lia|apply C07_bc1a_image_exact|apply from_bc1a]. Qed.
Theorem C82_bc2 m : arranges 16 (halves_from alpha_from colour_from) (decode_bc2 m).
Proof. apply (arrange_image 16 bc2_texel); [lia|apply C08_bc2_image_exact|apply from_bc2]. Qed.
Theorem C82_bc3 m : arranges 16 (halves_from ramp_from colour_from) (decode_bc3 m).
Proof. apply (arrange_image 16 bc3_texel); [lia|apply C09_bc3_image_exact|apply from_bc3]. Qed.
Theorem C82_bc4 m : arranges 8 ramp_from (decode_bc4 m).
Proof. apply (arrange_image 8 bc4_texel); [lia|apply C10_bc4_image_exact|apply from_bc4]. Qed.
Theorem C82_bc5 m : arranges 16 (halves_from ramp_from ramp_from) (decode_bc5 m).
Proof. apply (arrange_image 16 bc5_texel); [lia|apply C10_bc5_image_exact|apply from_bc5]. Qed.
Theorem C82_atc_rgb m : arranges 8 colour_from (decode_atc_rgb4 m).
Proof. apply (arrange_image 8 (atc_rgb4_texel atc_dark_code)); [lia|apply C17_atc_rgb_image_code|apply from_atc]. Qed.
Theorem C82_atc_rgba m : arranges 16 (halves_from ramp_from colour_from) (decode_atc_rgba8 m).
Proof. apply (arrange_image 16 (atc_rgba8_texel atc_dark_code)); [lia|apply C18_atc_rgba_image_exact|apply from_atca]. Qed.

(** Mirror images and turned pictures *)
Theorem C82_bc1_turned m : mirrors 8 colour_from (decode_bc1 m) /\ half_turns 8 colour_from (decode_bc1 m) /\ right_turns 8 colour_from (decode_bc1 m) /\ left_turns 8 colour_from (decode_bc1 m).
Proof. exact (turned 8 _ _ ltac:(lia) (C82_bc1 m)). Qed.
Theorem C82_bc1a_turned m : mirrors 8 colour_from (decode_bc1a m) /\ half_turns 8 colour_from (decode_bc1a m) /\ right_turns 8 colour_from (decode_bc1a m) /\ left_turns 8 colour_from (decode_bc1a m).
Proof. exact (turned 8 _ _ ltac:(lia) (C82_bc1a m)). Qed.
Theorem C82_bc2_turned m : mirrors 16 (halves_from alpha_from colour_from) (decode_bc2 m) /\ half_turns 16 (halves_from alpha_from colour_from) (decode_bc2 m) /\ right_turns 16 (halves_from alpha_from colour_from) (decode_bc2 m) /\ left_turns 16 (halves_from alpha_from colour_from) (decode_bc2 m).
Proof. exact (turned 16 _ _ ltac:(lia) (C82_bc2 m)). Qed.
Theorem C82_bc3_turned m : mirrors 16 (halves_from ramp_from colour_from) (decode_bc3 m) /\ half_turns 16 (halves_from ramp_from colour_from) (decode_bc3 m) /\ right_turns 16 (halves_from ramp_from colour_from) (decode_bc3 m) /\ left_turns 16 (halves_from ramp_from colour_from) (decode_bc3 m).
Proof. exact (turned 16 _ _ ltac:(lia) (C82_bc3 m)). Qed.
Theorem C82_bc4_turned m : mirrors 8 ramp_from (decode_bc4 m) /\ half_turns 8 ramp_from (decode_bc4 m) /\ right_turns 8 ramp_from (decode_bc4 m) /\ left_turns 8 ramp_from (decode_bc4 m).
Proof. exact (turned 8 _ _ ltac:(lia) (C82_bc4 m)). Qed.
Theorem C82_bc5_turned m : mirrors 16 (halves_from ramp_from ramp_from) (decode_bc5 m) /\ half_turns 16 (halves_from ramp_from ramp_from) (decode_bc5 m) /\ right_turns 16 (halves_from ramp_from ramp_from) (decode_bc5 m) /\ left_turns 16 (halves_from ramp_from ramp_from) (decode_bc5 m).
Proof. exact (turned 16 _ _ ltac:(lia) (C82_bc5 m)). Qed.
Theorem C82_atc_rgb_turned m : mirrors 8 colour_from (decode_atc_rgb4 m) /\ half_turns 8 colour_from (decode_atc_rgb4 m) /\ right_turns 8 colour_from (decode_atc_rgb4 m) /\ left_turns 8 colour_from (decode_atc_rgb4 m).
Proof. exact (turned 8 _ _ ltac:(lia) (C82_atc_rgb m)). Qed.
Theorem C82_atc_rgba_turned m : mirrors 16 (halves_from ramp_from colour_from) (decode_atc_rgba8 m) /\ half_turns 16 (halves_from ramp_from colour_from) (decode_atc_rgba8 m) /\ right_turns 16 (halves_from ramp_from colour_from) (decode_atc_rgba8 m) /\ left_turns 16 (halves_from ramp_from colour_from) (decode_atc_rgba8 m).
Proof. exact (turned 16 _ _ ltac:(lia) (C82_atc_rgba m)). Qed.

(** A BC4 picture of 8 x 3 pixels, with a different index in every texel of the top
    row. *)
Definition wide_bc4 : list Z := [200; 100; 136; 6; 0; 0; 0; 0; 10; 250; 250; 10; 0; 0; 0; 0].
(** Its second block mirrored, then the first with all texels like its second one. *)
Definition new_block (k : Z) : Z := 1 - k.
Definition new_texel (k t : Z) : Z := if k =? 0 then beside t else 1.
Example C82_ex m : exists image' other', sized 4 4 8 wide_bc4 8 3 (repeat 7 24) /\ decode_bc4 m wide_bc4 8 3 (repeat 7 24) = Ok (Done, image') /\
  (forall k, 0 <= k < blocks 8 4 * blocks 2 4 -> 0 <= new_block k < blocks 8 4 * blocks 3 4) /\
  (forall k t, 0 <= k < blocks 8 4 * blocks 2 4 -> 0 <= t < 16 -> 0 <= new_texel k t < 16) /\
  decode_bc4 m (arranged 8 ramp_from new_block new_texel 2 wide_bc4) 8 2 (repeat 9 16) = Ok (Done, other') /\
  (forall y, 0 <= y < 2 -> znth other' (y * 8) = znth image' (y * 8 + 7) /\ znth other' (y * 8 + 3) = znth image' (y * 8 + 4) /\ znth other' (y * 8 + 5) = znth image' 1) /\
  znth image' 4 <> znth image' 7 /\ znth image' 1 <> znth image' 0.
Proof.
  assert (sized 4 4 8 wide_bc4 8 3 (repeat 7 24)) as S by (split; [repeat constructor; unfold is_byte; lia|vm_compute; intuition discriminate]).
  assert (exists image', decode_bc4 m wide_bc4 8 3 (repeat 7 24) = Ok (Done, image') /\ znth image' 4 <> znth image' 7 /\ znth image' 1 <> znth image' 0) as (image' & E & N) by (destruct m; eexists; (split; [vm_compute; reflexivity|vm_compute; split; discriminate])).
  assert (forall k, 0 <= k < blocks 8 4 * blocks 2 4 -> 0 <= new_block k < blocks 8 4 * blocks 3 4) as HB by (change (blocks 8 4 * blocks 2 4) with 2; change (blocks 8 4 * blocks 3 4) with 2; unfold new_block; intros; lia).
  assert (forall k t, 0 <= k < blocks 8 4 * blocks 2 4 -> 0 <= t < 16 -> 0 <= new_texel k t < 16) as HT by (intros k t _ Ht; unfold new_texel, beside; destruct (k =? 0); [clear - Ht; Z.to_euclidean_division_equations; lia|lia]).
  destruct (C82_bc4 m wide_bc4 8 3 (repeat 7 24) image' new_block new_texel 8 2 (repeat 9 16) S E ltac:(lia) ltac:(lia) ltac:(vm_compute; reflexivity) ltac:(vm_compute; discriminate) ltac:(vm_compute; reflexivity) HB HT) as (other' & E' & P).
  exists image', other'. split; [exact S|]. split; [exact E|]. split; [exact HB|]. split; [exact HT|]. split; [exact E'|]. split; [|exact N].
  intros y Hy. assert (y = 0 \/ y = 1) as [-> | ->] by lia;
    (split; [exact (P 0 _ ltac:(lia) Hy ltac:(vm_compute; reflexivity) ltac:(vm_compute; reflexivity))|]);
    (split; [exact (P 3 _ ltac:(lia) Hy ltac:(vm_compute; reflexivity) ltac:(vm_compute; reflexivity))|]);
    exact (P 5 _ ltac:(lia) Hy ltac:(vm_compute; reflexivity) ltac:(vm_compute; reflexivity)).
Qed.
(** A quarter turn of two BC1 blocks below each other, three pixels wide. *)
Definition tall_bc1 : list Z := [0; 248; 31; 0; 27; 228; 57; 0; 224; 7; 0; 248; 1; 2; 3; 4].
Example C82_ex_turned m : exists image' other', sized 4 4 8 tall_bc1 3 8 (repeat 7 24) /\ decode_bc1 m tall_bc1 3 8 (repeat 7 24) = Ok (Done, image') /\
  decode_bc1 m (right_turn_data 8 colour_from 1 2 tall_bc1) 8 3 (repeat 9 24) = Ok (Done, other') /\
  (forall x y, 0 <= x < 8 -> 0 <= y < 3 -> znth other' (y * 8 + x) = znth image' ((7 - x) * 3 + y)) /\ znth image' 0 <> znth image' 21.
Proof.
  assert (sized 4 4 8 tall_bc1 3 8 (repeat 7 24)) as S by (split; [repeat constructor; unfold is_byte; lia|vm_compute; intuition discriminate]).
  assert (exists image', decode_bc1 m tall_bc1 3 8 (repeat 7 24) = Ok (Done, image') /\ znth image' 0 <> znth image' 21) as (image' & E & N) by (destruct m; eexists; (split; [vm_compute; reflexivity|vm_compute; discriminate])).
  destruct (proj1 (proj2 (proj2 (C82_bc1_turned m))) tall_bc1 3 2 (repeat 7 24) image' (repeat 9 24) S ltac:(lia) E ltac:(vm_compute; discriminate) ltac:(vm_compute; reflexivity)) as (other' & E' & P).
  exists image', other'. split; [exact S|]. split; [exact E|]. split; [exact E'|]. split; [exact P|exact N].
Qed.

Print Assumptions C82_bc1.
Print Assumptions C82_bc1_turned.
Print Assumptions C82_bc1a.
Print Assumptions C82_bc1a_turned.
Print Assumptions C82_bc2.
Print Assumptions C82_bc2_turned.
Print Assumptions C82_bc3.
Print Assumptions C82_bc3_turned.
Print Assumptions C82_bc4.
Print Assumptions C82_bc4_turned.
Print Assumptions C82_bc5.
Print Assumptions C82_bc5_turned.
Print Assumptions C82_atc_rgb.
Print Assumptions C82_atc_rgb_turned.
Print Assumptions C82_atc_rgba.
Print Assumptions C82_atc_rgba_turned.
