(** * C83: which pictures the ETC formats can store *)
From Verif Require Import Base BaseLemmas ModelColor SpecImage SpecFormats SpecBc SpecEtc ModelEtc SpecCut SpecEncode SpecContent ProofContent PropEtc.

(** The pictures shown by the decoders are exactly those composed of the patterns:
    every content of a block has data that decode to it, in each of the modes. *)
Theorem C83_etc1 m : composes_exactly 8 etc1_pattern (decode_etc1 m).
Proof. apply (exactly_composed 8 etc1_wrap_texel); [apply C19_etc1_image_exact|lia|exact etc1_looks|exact etc1_stored]. Qed.
Theorem C83_etc2_rgb m : composes_exactly 8 etc2_pattern (decode_etc2_rgb m).
Proof.
  apply (exactly_composed 8 (fun b => etc2_texel b 0)); [apply C20_etc2_rgb_image_exact|lia| |exact etc2_stored].
  intros b _ _. exists (etc2_texel b 0). split; [apply etc2_looks|reflexivity].
Qed.
Theorem C83_etc2_rgba1 m : composes_exactly 8 etc2a_pattern (decode_etc2_rgba1 m).
Proof. apply (exactly_composed 8 etc2a_code_texel); [apply C22_etc2_rgba1_image_code|lia|exact etc2a_looks|exact etc2a_stored]. Qed.
Theorem C83_etc2_rgba8 m : composes_exactly 16 rgba8_pattern (decode_etc2_rgba8 m).
Proof. apply (exactly_composed 16 etc2_rgba8_texel); [apply C23_etc2_rgba8_image_exact|lia|exact rgba8_looks|exact rgba8_stored]. Qed.

(** The content of a valid ETC1 block is also that of an ETC1 block on the circle and of an ETC2 block. *)
Theorem C83_etc1_valid f : individual f \/ differential close f -> etc1_pattern f /\ etc2_pattern f.
Proof.
  intros [H|H]; [split; left; exact H|]. split; [|right; left; exact H]. right. destruct H as (above & c1 & c2 & k1 & k2 & i & H1 & H2 & N & R).
  exists above, c1, c2, k1, k2, i. split; [exact H1|]. split; [exact H2|]. split; [apply close_round_of, N|exact R].
Qed.

Ltac sixteen t Ht := apply Z.eqb_eq; match goal with |- ?b = true => match eval pattern t in b with ?f _ => change (f t = true); apply (all_below_spec 16 f); [vm_compute; reflexivity|exact Ht] end end.
(** A gradient of 6x5 pixels. *)
Definition slope (x y : Z) : Z := rgba (8 * (x mod 4) + (130 * (y mod 4) + 2) / 4) 0 40 255.
Lemma C83_slope_pattern : etc2_pattern (fun t => slope (t mod 4) (t / 4)).
Proof.
  right. right. right. right. exists (fun ch => if ch =? 2 then 10 else 0), (fun ch => if ch =? 2 then 10 else if ch =? 0 then 8 else 0), (fun ch => if ch =? 2 then 10 else if ch =? 0 then 32 else 0).
  split; [unfold colour676; cbn; lia|]. split; [unfold colour676; cbn; lia|]. split; [unfold colour676; cbn; lia|]. intros t Ht. sixteen t Ht.
Qed.
Lemma C83_slope : composed etc2_pattern 6 5 slope.
Proof.
  intros bx by_ Hx Hy Lx Ly. exists (fun t => slope (t mod 4) (t / 4)). split; [exact C83_slope_pattern|].
  intros x y Ix Iy _ _. transitivity (slope (x mod 4) (y mod 4)); [unfold slope; rewrite !Z.mod_mod by lia; reflexivity|]. f_equal; Z.to_euclidean_division_equations; lia.
Qed.
Example C83_ex m : exists data image', zlen data = 32 /\ decode_etc2_rgb m data 6 5 (repeat 7 30) = Ok (Done, image') /\ shows image' 6 5 slope /\
  nth 0 image' 0 = rgba 0 0 40 255 /\ nth 9 image' 0 = rgba 57 0 40 255.
Proof.
  destruct (C83_etc2_rgb m 6 5 slope ltac:(lia) ltac:(lia) ltac:(vm_compute; reflexivity) ltac:(lia)) as [P _].
  destruct (P C83_slope) as (data & _ & L & Q). destruct (Q (repeat 7 30)) as (image' & E & S); [vm_compute; discriminate|vm_compute; reflexivity|].
  exists data, image'. split; [exact L|]. split; [exact E|]. split; [exact S|]. split; [exact (S 0 0 ltac:(lia) ltac:(lia))|exact (S 3 1 ltac:(lia) ltac:(lia))].
Qed.
(** ETC1 data never show it: no half of a block has five colours. *)
Lemma C83_five (F : Z -> Z) (i : Z -> Z) (f : Z -> Z) (l : list Z) : (forall t, In t l -> 0 <= i t < 4 /\ f t = F (i t)) -> NoDup (map f l) -> (length l <= 4)%nat.
Proof.
  intros H N. rewrite <- (map_length f l). apply (NoDup_incl_length N (l' := map F [0; 1; 2; 3])). intros v Hv. apply in_map_iff in Hv. destruct Hv as (t & <- & Ht).
  destruct (H t Ht) as [R ->]. apply in_map. assert (i t = 0 \/ i t = 1 \/ i t = 2 \/ i t = 3) as C by lia. cbn. intuition lia.
Qed.
Example C83_ex_none m data image image' : bytes data -> 4 * zlen image < 2 ^ 63 -> decode_etc1 m data 6 5 image = Ok (Done, image') -> ~ shows image' 6 5 slope.
Proof.
  intros B H4 E S. destruct (C83_etc1 m 6 5 slope ltac:(lia) ltac:(lia) ltac:(vm_compute; reflexivity) ltac:(lia)) as [_ P].
  destruct (P data image image' B H4 E S 0 0) as (f & Hf & C); try lia.
  assert (forall t, 0 <= t < 16 -> f t = slope (t mod 4) (t / 4)) as EF.
  { intros t Ht. rewrite C by (Z.to_euclidean_division_equations; lia). f_equal. Z.to_euclidean_division_equations; lia. }
  assert (forall above c1 c2 k1 k2 i, choice_below 4 i -> (forall t, 0 <= t < 16 -> f t = halves etc_modifier above c1 c2 k1 k2 i t) -> False) as N.
  { intros above c1 c2 k1 k2 i Hi H. assert (length (if above then [0; 1; 2; 3; 4]%Z else [0; 1; 4; 5; 8]%Z) <= 4)%nat as L; [|destruct above; cbn in L; lia].
    apply (C83_five (fun j => add_rgb c1 (etc_modifier k1 j) 255) i f).
    - intros t Ht. assert (0 <= t < 16 /\ second_half above t = false) as [R Z0] by (destruct above; cbn in Ht; intuition subst; try lia; reflexivity).
      split; [apply Hi, R|]. rewrite H by exact R. unfold halves. rewrite Z0. reflexivity.
    - destruct above; cbn [map]; rewrite !EF by lia; repeat (constructor; [vm_compute; intuition discriminate|]); constructor. }
  destruct Hf as [(above & c1 & c2 & k1 & k2 & i & _ & _ & _ & _ & Hi & T)|(above & c1 & c2 & k1 & k2 & i & _ & _ & _ & _ & _ & Hi & T)]; eapply N; eassumption.
Qed.
(** An H block with transparent corners for RGBA1. *)
Definition corner (t : Z) : bool := (t =? 0) || (t =? 3) || (t =? 12) || (t =? 15).
Definition cross (x y : Z) : Z := if corner (4 * y + x) then rgba 16 16 203 0 else if x =? y then rgba 220 16 16 255 else rgba 188 0 0 255.
Lemma C83_cross : h_clear (fun t => cross (t mod 4) (t / 4)).
Proof.
  exists (fun ch => if ch =? 0 then 12 else 0), (fun ch => if ch =? 2 then 11 else 0), 3, (fun t => if corner t then 2 else if t mod 4 =? t / 4 then 0 else 1).
  split; [intros ch _; destruct (ch =? 0); lia|]. split; [intros ch _; destruct (ch =? 2); lia|]. split; [lia|]. split; [split; [vm_compute; discriminate|reflexivity]|].
  split; [intros t _; destruct (corner t); [lia|]; destruct (_ =? _); lia|]. intros t Ht. sixteen t Ht.
Qed.
Example C83_ex_clear m : exists data image', zlen data = 8 /\ decode_etc2_rgba1 m data 4 4 (repeat 7 16) = Ok (Done, image') /\ shows image' 4 4 cross.
Proof.
  destruct (C83_etc2_rgba1 m 4 4 cross ltac:(lia) ltac:(lia) ltac:(vm_compute; reflexivity) ltac:(lia)) as [P _]. destruct P as (data & _ & L & Q).
  - intros bx by_ Hx Hy Lx Ly. assert (bx = 0) as -> by lia. assert (by_ = 0) as -> by lia. exists (fun t => cross (t mod 4) (t / 4)). split; [right; right; right; exact C83_cross|].
    intros x y Ix Iy _ _. f_equal; Z.to_euclidean_division_equations; lia.
  - destruct (Q (repeat 7 16)) as (image' & E & S); [vm_compute; discriminate|vm_compute; reflexivity|]. exists data, image'. split; [exact L|]. split; [exact E|exact S].
Qed.
(** The gradient for RGBA8, each block from transparent to opaque. *)
Definition fading (x y : Z) : Z := slope x y - 255 * 16777216 + clamp8 (128 + znth [-15; -9; 8; 14] (x mod 4) * 15) * 16777216.
Example C83_ex_alpha m : exists data image', zlen data = 64 /\ decode_etc2_rgba8 m data 6 5 (repeat 7 30) = Ok (Done, image') /\ shows image' 6 5 fading /\
  nth 0 image' 0 = rgba 0 0 40 0 /\ nth 8 image' 0 = rgba 49 0 40 248.
Proof.
  destruct (C83_etc2_rgba8 m 6 5 fading ltac:(lia) ltac:(lia) ltac:(vm_compute; reflexivity) ltac:(lia)) as [P _]. destruct P as (data & _ & L & Q).
  - intros bx by_ Hx Hy Lx Ly. exists (fun t => fading (t mod 4) (t / 4)). split.
    + exists (fun t => slope (t mod 4) (t / 4)), (fun t => clamp8 (128 + znth [-15; -9; 8; 14] (t mod 4 mod 4) * 15)).
      split; [exact C83_slope_pattern|]. split; [|reflexivity]. exists 128, 15, 0, (fun t => znth [3; 2; 6; 7] (t mod 4)). split; [lia|]. split; [lia|]. split; [lia|].
      split; [intros t Ht; assert (t mod 4 = 0 \/ t mod 4 = 1 \/ t mod 4 = 2 \/ t mod 4 = 3) as C by (Z.to_euclidean_division_equations; lia); destruct C as [-> | [-> | [-> | ->]]]; vm_compute; split; congruence|].
      intros t Ht. sixteen t Ht.
    + intros x y Ix Iy _ _. transitivity (fading (x mod 4) (y mod 4)); [unfold fading, slope; rewrite !Z.mod_mod by lia; reflexivity|]. f_equal; Z.to_euclidean_division_equations; lia.
  - destruct (Q (repeat 7 30)) as (image' & E & S); [vm_compute; discriminate|vm_compute; reflexivity|]. exists data, image'. split; [exact L|]. split; [exact E|]. split; [exact S|].
    split; [exact (S 0 0 ltac:(lia) ltac:(lia))|exact (S 2 1 ltac:(lia) ltac:(lia))].
Qed.

Print Assumptions C83_etc1.
Print Assumptions C83_etc2_rgb.
Print Assumptions C83_etc2_rgba1.
Print Assumptions C83_etc2_rgba8.
Print Assumptions C83_etc1_valid.
