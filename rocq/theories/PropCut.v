(** * C75: parts of pictures and pictures put together *)
From Verif Require Import Base BaseLemmas ModelColor SpecImage SpecFormats SpecBc ModelBc ModelBc6 ModelBc7 ModelEtc ModelAstc SpecAstc SpecCut ProofCut
  PropImage PropBc PropBc6 PropBc7 PropEtc PropAstc.

(** Every block of the 4x4 formats is decoded; BC6H in a wrapping build (C14). *)
Definition any_block (_ : list Z) : Prop := True.
Lemma format_decodes m raw bd dec : In (raw, bd, dec) (formats m) -> 0 < raw /\ exists tex, decodes_good 4 4 raw any_block tex dec.
Proof.
  intros H. unfold formats in H. cbn [In] in H.
  repeat (destruct H as [E|H]; [inversion E; subst raw bd dec; clear E; split; [lia|]|]); [..|contradiction].
  - eexists. apply decodes_all, C06_bc1_image_exact.
  - eexists. apply decodes_all, C07_bc1a_image_exact.
  - eexists. apply decodes_all, C08_bc2_image_exact.
  - eexists. apply decodes_all, C09_bc3_image_exact.
  - eexists. apply decodes_all, C10_bc4_image_exact.
  - eexists. apply decodes_all, C10_bc5_image_exact.
  - eexists. apply decodes_all, C17_atc_rgb_image_code.
  - eexists. apply decodes_all, C18_atc_rgba_image_exact.
  - eexists. apply decodes_all, C19_etc1_image_exact.
  - eexists. apply decodes_all, C20_etc2_rgb_image_exact.
  - eexists. apply decodes_all, C22_etc2_rgba1_image_code.
  - eexists. apply decodes_all, C23_etc2_rgba8_image_exact.
  - eexists. apply decodes_all, C24_eac_r_image_code.
  - eexists. apply decodes_all, C24_eac_r_signed_image_code.
  - eexists. apply decodes_all, C24_eac_rg_image_code.
  - eexists. apply decodes_all, C24_eac_rg_signed_image_code.
  - eexists. apply decodes_all, C12_bc7_image_exact.
Qed.
Lemma astc_decodes m bw bh : 2 <= bw -> 2 <= bh -> bw * bh <= 144 ->
  decodes_good bw bh 16 (fun b => well_formed (astc_word b)) (fun b => astc_texel_with extend16 bw bh (astc_word b)) (fun data w h image => decode_astc m data w h bw bh image).
Proof.
  intros Hw Hh HA data w h image (Hb & HW & HH & HI & HZ & HS).
  assert (astc_sane data w h bw bh image) as S by (repeat (split; [assumption || lia|]); exact HZ).
  destruct (C29_validation m data w h bw bh image S) as (V1 & V2 & _). split; [intros L; rewrite (V1 HA L); eauto|]. split; [intros R L; rewrite (V2 HA R L); eauto|].
  intros R L G. exact (C29_well_formed_image m data w h bw bh image S Hw Hh HA R L G).
Qed.

Theorem C75_parts m raw bd dec : In (raw, bd, dec) (formats m) -> decodes_parts 4 4 raw any_block dec.
Proof. intros H. destruct (format_decodes m raw bd dec H) as (Hr & tex & G). apply (parts 4 4 raw any_block tex); [lia|lia|exact Hr|exact G]. Qed.
Theorem C75_stacks m raw bd dec : In (raw, bd, dec) (formats m) -> decodes_stacks 4 4 raw any_block dec.
Proof. intros H. destruct (format_decodes m raw bd dec H) as (Hr & tex & G). apply (stacks 4 4 raw any_block tex); [lia|lia|exact Hr|exact G]. Qed.

Theorem C75_bc6 signed : let dec data w h image := decode_bc6 Wrapping data w h image signed in
  decodes_parts 4 4 16 any_block dec /\ decodes_stacks 4 4 16 any_block dec.
Proof.
  assert (exists tex, decodes_good 4 4 16 any_block tex (fun data w h image => decode_bc6 Wrapping data w h image signed)) as (tex & G).
  { destruct signed; eexists; apply decodes_all; [exact C45_bc6s_image_code|exact C15_bc6u_image_code]. }
  split; [apply (parts 4 4 16 any_block tex)|apply (stacks 4 4 16 any_block tex)]; (lia || exact G).
Qed.

(** ASTC: for well-formed blocks of any size; the code reads bytes behind other
    blocks (C47). *)
Theorem C75_astc m bw bh : 2 <= bw -> 2 <= bh -> bw * bh <= 144 ->
  let dec data w h image := decode_astc m data w h bw bh image in
  decodes_parts bw bh 16 (fun b => well_formed (astc_word b)) dec /\ decodes_stacks bw bh 16 (fun b => well_formed (astc_word b)) dec.
Proof.
  intros Hw Hh HA dec. pose proof (astc_decodes m bw bh Hw Hh HA) as G.
  split; [eapply parts|eapply stacks]; try exact G; lia.
Qed.

(** The right block of [two_bc1] by itself, two of its rows. *)
Example C75_ex m : exists image' small', decode_bc1 m two_bc1 8 4 (repeat 7 32) = Ok (Done, image') /\
  decode_bc1 m (cut 8 2 1 0 1 1 two_bc1) 3 2 (repeat 9 6) = Ok (Done, small') /\
  (forall x y, 0 <= x < 3 -> 0 <= y < 2 -> znth small' (y * 3 + x) = znth image' (y * 8 + (4 + x))) /\ znth small' 0 <> znth image' 0.
Proof.
  assert (exists image', decode_bc1 m two_bc1 8 4 (repeat 7 32) = Ok (Done, image') /\ znth image' 0 = 4283782485) as (image' & E & E0).
  { destruct m; eexists; (split; [vm_compute; reflexivity|vm_compute; reflexivity]). }
  assert (sized 4 4 8 two_bc1 8 4 (repeat 7 32)) as S.
  { split; [repeat constructor; unfold is_byte; lia|]. vm_compute. intuition discriminate. }
  destruct (C75_parts m 8 (decode_bc1_block m) (decode_bc1 m) ltac:(left; reflexivity) two_bc1 8 4 (repeat 7 32) image' 1 0 3 2 (repeat 9 6) S) as (small' & E2 & P);
    try lia; [intros k _; exact I|exact E|reflexivity || (vm_compute; discriminate)|vm_compute; reflexivity|].
  exists image', small'. split; [exact E|]. split; [exact E2|]. split; [exact P|]. rewrite E0.
  destruct m; vm_compute in E2; inversion E2; subst small'; vm_compute; discriminate.
Qed.
(** [two_bc1] as two blocks below each other. *)
Example C75_ex2 m : exists image', decode_bc1 m two_bc1 4 7 (repeat 0 28) = Ok (Done, image') /\
  exists i1 i2, decode_bc1 m (firstn 8 two_bc1) 4 4 (repeat 0 16) = Ok (Done, i1) /\ decode_bc1 m (skipn 8 two_bc1) 4 3 (repeat 0 12) = Ok (Done, i2) /\
    forall x y, 0 <= x < 4 -> 0 <= y < 7 -> znth image' (y * 4 + x) = if y <? 4 then znth i1 (y * 4 + x) else znth i2 ((y - 4) * 4 + x).
Proof.
  assert (exists i1 i2, decode_bc1 m (firstn 8 two_bc1) 4 4 (repeat 0 16) = Ok (Done, i1) /\ decode_bc1 m (skipn 8 two_bc1) 4 3 (repeat 0 12) = Ok (Done, i2)) as (i1 & i2 & E1 & E2).
  { destruct m; eexists; eexists; (split; [vm_compute; reflexivity|vm_compute; reflexivity]). }
  assert (forall data h image, forallb (fun v => (0 <=? v) && (v <? 256)) data = true -> (0 <=? h) && (h <? 100) && (zlen image <? 100) = true -> sized 4 4 8 data 4 h image) as S.
  { intros data h image Hd Hh. apply andb_prop in Hh as [Hh Hi]. apply andb_prop in Hh as [H0 H1]. apply Z.leb_le in H0. apply Z.ltb_lt in H1, Hi.
    split. { apply Forall_forall. intros v Hv. pose proof (proj1 (forallb_forall _ _) Hd v Hv) as Q. apply andb_prop in Q as [Q1 Q2]. apply Z.leb_le in Q1. apply Z.ltb_lt in Q2. unfold is_byte. lia. }
    split; [lia|]. split; [lia|]. split; [lia|]. pose proof (blocks_mono h 100 4 ltac:(lia) ltac:(lia)) as B. change (blocks 100 4) with 25 in B. change (blocks 4 4) with 1. lia. }
  destruct (C75_stacks m 8 (decode_bc1_block m) (decode_bc1 m) ltac:(left; reflexivity) (firstn 8 two_bc1) (skipn 8 two_bc1) 4 4 3 (repeat 0 16) (repeat 0 12) i1 i2 (repeat 0 28)) as (image' & E & P);
    [apply S; reflexivity|apply S; reflexivity|apply S; reflexivity|intros k _; exact I|intros k _; exact I|exact E1|exact E2|reflexivity|reflexivity|vm_compute; discriminate|].
  exists image'. split; [exact E|]. exists i1, i2. auto.
Qed.

Print Assumptions C75_parts.
Print Assumptions C75_stacks.
Print Assumptions C75_bc6.
Print Assumptions C75_astc.
