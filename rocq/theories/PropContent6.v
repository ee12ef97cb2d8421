(** * C88: exactly which pictures BC6H decoding shows *)
From Verif Require Import Base BaseLemmas ModelColor SpecImage SpecBptc SpecBc SpecF16 SpecBc6 ModelBc6 SpecCut SpecEncode SpecContent SpecContent6 ProofF16 ProofContent6.

(** Every picture composed of such blocks, in each of the fourteen modes, has data;
    and data that decodes shows such a picture. *)
Theorem C88_contents m sgn : composes_exactly 16 (bc6_full m sgn) (fun data w h image => decode_bc6 m data w h image sgn).
Proof. exact (bc6_exactly m sgn). Qed.
Print Assumptions C88_contents.

(** Two subsets, upper and lower half, in mode 2: 11 bits for the first end point,
    differences of 5 and 4 bits for the other three. *)
Definition dawn_v (c e : Z) : Z := if e =? 0 then 900 + 30 * c else if c =? 0 then 8 * e - 7 else 15 - 3 * e.
Definition dawn_t (t : Z) : Z :=
  rgba (channel6 false 2 13 dawn_v (fun t => t mod 4) 0 t) (channel6 false 2 13 dawn_v (fun t => t mod 4) 1 t) (channel6 false 2 13 dawn_v (fun t => t mod 4) 2 t) 255.
Definition dawn (x y : Z) : Z := dawn_t (4 * (y mod 4) + x mod 4).
Lemma dawn_full m : bc6_full m false dawn_t.
Proof.
  right. exists 2, 13, dawn_v, (fun t => t mod 4). split; [cbn; tauto|]. split; [right; discriminate|]. split; [lia|]. split; [|split; [|reflexivity]].
  - intros c e Hc He. change (2 * subsets6 2) with 4 in He. unfold number_bits, dawn_v. change (EB 2) with 11.
    assert (c = 0 \/ c = 1 \/ c = 2) as [-> | [-> | ->]] by lia; assert (e = 0 \/ e = 1 \/ e = 2 \/ e = 3) as [-> | [-> | [-> | ->]]] by lia; vm_compute; intuition discriminate.
  - intros t Ht. pose proof (Z.mod_pos_bound t 4 ltac:(lia)) as R. change (weight_bits 2) with 3. destruct (first_of 2 13 t); [change (2 ^ (3 - 1)) with 4|change (2 ^ (3 - 0)) with 8]; lia.
Qed.
Lemma dawn_composed m : composed (bc6_full m false) 9 6 dawn.
Proof.
  intros bx by_ Hx Hy _ _. exists dawn_t. split; [apply dawn_full|].
  intros x y Ix Iy _ _. unfold dawn. replace (x mod 4) with (x - 4 * bx) by (apply Z.mod_unique with bx; lia). replace (y mod 4) with (y - 4 * by_) by (apply Z.mod_unique with by_; lia). f_equal; ring.
Qed.
Example C88_ex m : (exists data, bytes data /\ zlen data = 96 /\ forall image, 54 <= zlen image -> 4 * zlen image < 2 ^ 63 ->
    exists image', decode_bc6 m data 9 6 image false = Ok (Done, image') /\ shows image' 9 6 dawn) /\
  map (fun y => dawn 1 y) [0; 1; 2; 3] = map dawn_t [1; 5; 9; 13] /\ dawn 1 1 <> dawn 2 1.
Proof.
  split; [|split; [vm_compute; reflexivity|vm_compute; discriminate]].
  exact (proj1 (C88_contents m false 9 6 dawn ltac:(lia) ltac:(lia) ltac:(vm_compute; reflexivity) ltac:(vm_compute; reflexivity)) (dawn_composed m)).
Qed.
(** No data shows a picture with a half transparent texel. *)
Example C88_alpha_ex m sgn data image image' : bytes data -> 4 * zlen image < 2 ^ 63 -> decode_bc6 m data 4 4 image sgn = Ok (Done, image') -> ~ shows image' 4 4 (fun x y => if (x =? 2) && (y =? 1) then 0x80102030 else 0xff102030).
Proof.
  intros B H4 E S. destruct (C88_contents m sgn 4 4 (fun x y => if (x =? 2) && (y =? 1) then 0x80102030 else 0xff102030) ltac:(lia) ltac:(lia) ltac:(vm_compute; reflexivity) ltac:(vm_compute; reflexivity)) as [_ C].
  destruct (C data image image' B H4 E S 0 0 ltac:(lia) ltac:(lia) ltac:(lia) ltac:(lia)) as (f & P & Q).
  pose proof (Q 2 1 ltac:(lia) ltac:(lia) ltac:(lia) ltac:(lia)) as A. cbn in A. destruct P as [Z0|(mode & part & v & i & _ & _ & _ & _ & _ & F)].
  - rewrite Z0 in A by lia. discriminate A.
  - rewrite F in A by lia. unfold rgba, channel6 in A. cbv zeta in A.
    repeat match type of A with context [half_byte ?h] => let R := fresh in pose proof (half_byte_range h) as R; unfold is_byte in R; revert R; generalize dependent (half_byte h); intros end. lia.
Qed.
