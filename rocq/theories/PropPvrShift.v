(** * C77: PVRTC textures wrap around; equal end points *)
From Verif Require Import Base BaseLemmas ModelColor SpecImage SpecBc SpecEtc ModelPvrtc SpecPvrtc SpecPvrShift ProofPvrShift PropPvrtc.

Theorem C77_shift_4bpp m : pvr_shifts 4 (decode_pvrtc_4bpp m).
Proof. exact (shifts 4 _ _ (or_introl eq_refl) (C28_pvrtc_4bpp_exact m) shift4). Qed.
Theorem C77_shift_2bpp m : pvr_shifts 8 (decode_pvrtc_2bpp m).
Proof. exact (shifts 8 _ _ (or_intror eq_refl) (C46_pvrtc_2bpp_exact m) shift2). Qed.
Theorem C77_even_4bpp m : pvr_even 4 mod4_at clear4_at (decode_pvrtc_4bpp m).
Proof. exact (even 4 _ _ _ _ (or_introl eq_refl) (C28_pvrtc_4bpp_exact m) even4). Qed.
Theorem C77_even_2bpp m : pvr_even 8 mod2 clear2_at (decode_pvrtc_2bpp m).
Proof. exact (even 8 _ _ _ _ (or_intror eq_refl) (C46_pvrtc_2bpp_exact m) even2). Qed.

(** The two blocks of [pvr_two] exchanged. *)
Definition pvr_swapped : list Z := skipn 8 pvr_two ++ firstn 8 pvr_two.
Example C77_ex_shift m : exists i1 i2, decode_pvrtc_4bpp m pvr_two 8 4 (repeat 0 32) = Ok (Done, i1) /\ decode_pvrtc_4bpp m pvr_swapped 8 4 (repeat 0 32) = Ok (Done, i2) /\
  (forall x y, 0 <= x < 8 -> 0 <= y < 4 -> znth i2 (y * 8 + x) = znth i1 (y * 8 + (x + 4) mod 8)) /\ znth i1 0 = 3279633837.
Proof.
  destruct (C77_shift_4bpp m pvr_two pvr_swapped 8 4 (repeat 0 32) (repeat 0 32) 1 0 1 0) as (i1 & i2 & E1 & E2 & P);
    [| |lia|lia|reflexivity|reflexivity|vm_compute; discriminate|vm_compute; discriminate|vm_compute; discriminate|vm_compute; discriminate| |].
  - split; [repeat constructor; unfold is_byte; lia|vm_compute; intuition discriminate].
  - split; [repeat constructor; unfold is_byte; lia|vm_compute; intuition discriminate].
  - intros bx by_ Hx Hy. change (2 ^ 1) with 2 in Hx. change (2 ^ 0) with 1 in Hy. assert (by_ = 0) as -> by lia. assert (bx = 0 \/ bx = 1) as [->| ->] by lia; vm_compute; reflexivity.
  - exists i1, i2. split; [exact E1|]. split; [exact E2|]. split.
    + intros x y X Y. rewrite P by assumption. f_equal. rewrite Z.mul_0_r, Z.add_0_r, (Z.mod_small y 4) by lia. reflexivity.
    + destruct m; vm_compute in E1; inversion E1; reflexivity.
Qed.
(** Two blocks with the same end points and different modulation. *)
Definition pvr_same : list Z := [0x1B; 0xE4; 0x39; 0x72; 0x34; 0x92; 0x77; 0x41; 0x27; 0x8D; 0xB1; 0x4E; 0x34; 0x92; 0x77; 0x41].
Definition same_a (c : Z) : Z := pvr_a (firstn 8 pvr_same) c.
Definition same_b (c : Z) : Z := pvr_b (firstn 8 pvr_same) c.
Example C77_ex_even m : exists image', decode_pvrtc_4bpp m pvr_same 7 4 (repeat 0 28) = Ok (Done, image') /\
  znth image' 4 = even_pixel same_a same_b 8 false /\ znth image' 7 = even_pixel same_a same_b 0 false /\ even_pixel same_a same_b 0 false <> even_pixel same_a same_b 8 false.
Proof.
  destruct (C77_even_4bpp m pvr_same 7 4 (repeat 0 28) 1 0 same_a same_b) as (image' & E & P);
    [|lia|lia|reflexivity|reflexivity|vm_compute; discriminate|vm_compute; discriminate| |].
  - split; [repeat constructor; unfold is_byte; lia|vm_compute; intuition discriminate].
  - intros bx by_ c Hx Hy Hc. change (2 ^ 1) with 2 in Hx. change (2 ^ 0) with 1 in Hy. assert (by_ = 0) as -> by lia.
    assert (bx = 0 \/ bx = 1) as [->| ->] by lia; (assert (c = 0 \/ c = 1 \/ c = 2 \/ c = 3) as [->|[->|[->| ->]]] by lia; vm_compute; auto).
  - exists image'. split; [exact E|]. pose proof (P 4 0 ltac:(lia) ltac:(lia)) as A. pose proof (P 0 1 ltac:(lia) ltac:(lia)) as B.
    change (0 * 7 + 4) with 4 in A. change (1 * 7 + 0) with 7 in B. rewrite A, B. split; [vm_compute; reflexivity|]. split; [vm_compute; reflexivity|vm_compute; discriminate].
Qed.

Print Assumptions C77_shift_4bpp.
Print Assumptions C77_shift_2bpp.
Print Assumptions C77_even_4bpp.
Print Assumptions C77_even_2bpp.
