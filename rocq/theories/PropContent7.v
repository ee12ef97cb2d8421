(** * C84: which pictures BC7 can store *)
From Verif Require Import Base BaseLemmas ModelColor SpecImage SpecFormats SpecBptc SpecBc SpecBc7 ModelBc7 SpecCut SpecEncode SpecContent ProofContent SpecContent7 ProofContent7 PropBc7.

(** The pictures shown by the decoder are exactly those composed of the patterns.
    The bits that anchor texels lack cost nothing: all weights can be had. *)
Theorem C84_bc7 m : composes_exactly 16 bc7_pattern (decode_bc7 m).
Proof. apply (exactly_composed 16 bc7_texel); [apply C12_bc7_image_exact|lia|exact bc7_looks|exact bc7_stored]. Qed.

Ltac sixteen t Ht := apply Z.eqb_eq; match goal with |- ?b = true => match eval pattern t in b with ?f _ => change (f t = true); apply (all_below_spec 16 f); [vm_compute; reflexivity|exact Ht] end end.
(** Mode 6, all sixteen weights, the first texel with the largest one. *)
Definition fade (x y : Z) : Z := let g := lerp64 1 255 (znth (weights 4) (15 - (4 * y + x))) in rgba g g g 255.
Lemma C84_fade : bc7_pattern (fun t => fade (t mod 4) (t / 4)).
Proof.
  right. exists 6, 0, 0, 0, (fun c e => if (c <? 3) && (e =? 0) then 0 else 127), (fun _ => 1), (fun t => 15 - t), (fun _ => 0).
  split; [lia|]. split; [vm_compute; split; congruence|]. split; [vm_compute; split; congruence|]. split; [vm_compute; split; congruence|]. split; [|split; [intros t Ht; change (2 ^ IB 6) with 16; lia|split; [intros t _; change (2 ^ IB2 6) with 1; lia|]]].
  - change (2 ^ CB 6) with 128. unfold bc7_ends. change (2 ^ CB 6) with 128. change (2 ^ AB 6) with 128. split; [intros c e _ _; destruct ((c <? 3) && (e =? 0)); lia|]. split; [intros e _; cbn; lia|]. split; [intros; lia|]. intros H. vm_compute in H. discriminate.
  - intros t Ht. sixteen t Ht.
Qed.
Example C84_ex m : exists data image', zlen data = 16 /\ decode_bc7 m data 4 4 (repeat 7 16) = Ok (Done, image') /\ shows image' 4 4 fade /\
  nth 0 image' 0 = rgba 255 255 255 255 /\ nth 9 image' 0 = rgba 104 104 104 255 /\ nth 15 image' 0 = rgba 1 1 1 255.
Proof.
  destruct (C84_bc7 m 4 4 fade ltac:(lia) ltac:(lia) ltac:(vm_compute; reflexivity) ltac:(lia)) as [P _]. destruct P as (data & _ & L & Q).
  - intros bx by_ Hx Hy Lx Ly. assert (bx = 0) as -> by lia. assert (by_ = 0) as -> by lia. exists (fun t => fade (t mod 4) (t / 4)). split; [exact C84_fade|].
    intros x y Ix Iy _ _. f_equal; Z.to_euclidean_division_equations; lia.
  - destruct (Q (repeat 7 16)) as (image' & E & S); [vm_compute; discriminate|vm_compute; reflexivity|]. exists data, image'. split; [exact L|]. split; [exact E|]. split; [exact S|].
    split; [exact (S 0 0 ltac:(lia) ltac:(lia))|]. split; [exact (S 1 2 ltac:(lia) ltac:(lia))|exact (S 3 3 ltac:(lia) ltac:(lia))].
Qed.
(** Mode 4 with green stored as alpha and exchanged weights, both first indices large. *)
Definition cells (x y : Z) : Z :=
  let w := znth (weights 3) (7 - (4 * (y mod 2) + x)) in rgba (lerp64 0 255 w) (lerp64 0 255 (znth (weights 2) (3 - x))) (lerp64 255 0 w) 255.
Lemma C84_cells : bc7_pattern (fun t => cells (t mod 4) (t / 4)).
Proof.
  right. exists 4, 0, 2, 1, (fun c e => if c =? 0 then 31 * e else if c =? 1 then 31 else if c =? 2 then 31 * (1 - e) else 63 * e), (fun _ => 0), (fun t => 3 - t mod 4), (fun t => 7 - t mod 8).
  split; [lia|]. split; [vm_compute; split; congruence|]. split; [vm_compute; split; congruence|]. split; [vm_compute; split; congruence|].
  split; [|split; [intros t Ht; change (2 ^ IB 4) with 4; Z.to_euclidean_division_equations; lia|split; [intros t _; change (2 ^ IB2 4) with 8; Z.to_euclidean_division_equations; lia|]]].
  - unfold bc7_ends. change (2 ^ CB 4) with 32. change (2 ^ AB 4) with 64. change (2 * NS 4) with 2. split; [intros c e Hc He; destruct (Z.eqb_spec c 0); [lia|]; destruct (Z.eqb_spec c 1); [lia|]; destruct (Z.eqb_spec c 2); lia|]. split; [intros e He; cbn [Z.eqb Pos.eqb]; lia|]. split; [intros; lia|]. intros H. vm_compute in H. discriminate.
  - intros t Ht. sixteen t Ht.
Qed.
Example C84_ex_rotated m : exists data image', zlen data = 32 /\ decode_bc7 m data 4 7 (repeat 7 28) = Ok (Done, image') /\ shows image' 4 7 (fun x y => cells x (y mod 4)) /\
  nth 0 image' 0 = rgba 255 255 0 255 /\ nth 5 image' 0 = rgba 72 171 183 255.
Proof.
  destruct (C84_bc7 m 4 7 (fun x y => cells x (y mod 4)) ltac:(lia) ltac:(lia) ltac:(vm_compute; reflexivity) ltac:(lia)) as [P _]. destruct P as (data & _ & L & Q).
  - intros bx by_ Hx Hy Lx Ly. exists (fun t => cells (t mod 4) (t / 4)). split; [exact C84_cells|]. intros x y Ix Iy _ _. f_equal; Z.to_euclidean_division_equations; lia.
  - destruct (Q (repeat 7 28)) as (image' & E & S); [vm_compute; discriminate|vm_compute; reflexivity|]. exists data, image'. split; [exact L|]. split; [exact E|]. split; [exact S|].
    split; [exact (S 0 0 ltac:(lia) ltac:(lia))|exact (S 1 1 ltac:(lia) ltac:(lia))].
Qed.

Print Assumptions C84_bc7.
