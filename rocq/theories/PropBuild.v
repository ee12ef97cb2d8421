(** * C61: builds with and without overflow checks agree *)
From Verif Require Import Base ModelColor ModelBc ModelBc6 ModelBc7 ModelEtc ModelPvrtc ModelAstc ModelCrunch ModelUnity ModelPy ProofAgree.

(** What a build with overflow checks returns (an image, or an error and what
    it left of the image) a build without them returns as well, and when the
    latter panics so does the former. *)
Definition same_in_release {A} (f : build -> list Z -> Z -> Z -> list Z -> res A) : Prop :=
  forall data w h image,
    (forall r, f Checked data w h image = Ok r -> f Wrapping data w h image = Ok r) /\
    (f Wrapping data w h image = Panic -> f Checked data w h image = Panic).

Lemma same_agrees {A} (f : build -> list Z -> Z -> Z -> list Z -> res A) :
  (forall data w h image, agrees (f Checked data w h image) (f Wrapping data w h image)) -> same_in_release f.
Proof.
  intros H data w h image. destruct (H data w h image) as [E|E]; rewrite E; split; intros; auto; discriminate.
Qed.
Ltac same := repeat (apply Forall_nil || (apply Forall_cons; [apply same_agrees; intros; auto with ag nocore|])).

Theorem C61_bcn_atc : Forall same_in_release
  [decode_bc1; decode_bc1a; decode_bc2; decode_bc3; decode_bc4; decode_bc5; decode_bc6_signed; decode_bc6_unsigned; decode_bc7;
   decode_atc_rgb4; decode_atc_rgba8].
Proof. same. Qed.
Theorem C61_etc_eac : Forall same_in_release
  [decode_etc1; decode_etc2_rgb; decode_etc2_rgba1; decode_etc2_rgba8; decode_eacr; decode_eacr_signed; decode_eacrg; decode_eacrg_signed].
Proof. same. Qed.
Theorem C61_pvrtc : Forall same_in_release [decode_pvrtc_2bpp; decode_pvrtc_4bpp].
Proof. same. Qed.
Theorem C61_astc bw bh : same_in_release (fun m data w h image => decode_astc m data w h bw bh image).
Proof. apply same_agrees. intros. apply ag_decode_astc. Qed.
Theorem C61_crunch : Forall same_in_release [decode_crunch; decode_unity_crunch].
Proof. same. Qed.
Theorem C61_python : (forall bw bh, same_in_release (fun m data w h beyond => py_decode_astc m data w h bw bh beyond)) /\
  (forall x y, same_in_release (fun m => py_decode_astc_sized m x y)) /\
  Forall same_in_release
  [py_decode_bc1; py_decode_bc1a; py_decode_bc2; py_decode_bc3; py_decode_bc4; py_decode_bc5; py_decode_bc6_signed; py_decode_bc6_unsigned;
   py_decode_bc7; py_decode_atc_rgb4; py_decode_atc_rgba8; py_decode_etc1; py_decode_etc2_rgb; py_decode_etc2_rgba1; py_decode_etc2_rgba8;
   py_decode_eacr; py_decode_eacr_signed; py_decode_eacrg; py_decode_eacrg_signed; py_decode_pvrtc_2bpp; py_decode_pvrtc_4bpp;
   py_decode_crunch; py_decode_unity_crunch].
Proof.
  split; [intros; apply same_agrees; intros; apply ag_py_decode_astc|].
  split; [intros; apply same_agrees; intros; apply ag_py_decode_astc_sized|]. same.
Qed.
(** The public block functions. *)
Theorem C61_blocks data out r : Forall (fun f : build -> list Z -> list Z -> res (list Z) => f Checked data out = Ok r -> f Wrapping data out = Ok r)
  [decode_bc1_block; decode_bc1a_block; decode_bc2_block; decode_bc3_block; decode_bc4_block; decode_bc5_block; decode_bc6_block_signed;
   decode_bc6_block_unsigned; decode_bc7_block; decode_atc_rgb4_block; decode_atc_rgba8_block; decode_etc1_block; decode_etc2_rgb_block;
   decode_etc2_rgba1_block; decode_etc2_rgba8_block; decode_eacr_block; decode_eacr_signed_block; decode_eacrg_block; decode_eacrg_signed_block].
Proof.
  assert (forall f : build -> list Z -> list Z -> res (list Z), agrees (f Checked data out) (f Wrapping data out) ->
    f Checked data out = Ok r -> f Wrapping data out = Ok r) as K by (intros f [E|E]; rewrite E; congruence).
  repeat (apply Forall_nil || (apply Forall_cons; [apply K; auto with ag nocore|])).
Qed.
(** The other direction fails (C05, C14): sizes
    whose product overflows panic with checks only. *)
Example C61_ex :
  (exists r, decode_bc7 Checked ([64] ++ repeat 85 15) 4 4 (repeat 0 16) = Ok r /\ decode_bc7 Wrapping ([64] ++ repeat 85 15) 4 4 (repeat 0 16) = Ok r) /\
  decode_bc1 Checked [] (2 ^ 63 + 4) 4 [] = Panic /\ decode_bc1 Wrapping [] (2 ^ 63 + 4) 4 [] = Ok (Failed "Not enough data to decode image!", []).
Proof. split; [eexists; split; vm_compute; reflexivity|]. vm_compute. split; reflexivity. Qed.
Print Assumptions C61_bcn_atc.
Print Assumptions C61_etc_eac.
Print Assumptions C61_pvrtc.
Print Assumptions C61_astc.
Print Assumptions C61_crunch.
Print Assumptions C61_python.
Print Assumptions C61_blocks.
