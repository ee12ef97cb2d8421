(** * C87: BC6H images in both builds, and pictures BC6H can store *)
From Verif Require Import Base BaseLemmas ModelColor SpecImage SpecBptc SpecBc SpecF16 SpecBc6 ModelBc6 SpecCut SpecEncode SpecContent SpecContentBc6 ProofNoErr ProofContentBc6 PropBc6 PropErrors.

(** With overflow checks, blocks of mode 15 make the decoder panic (C14); all
    other images are decoded as without them. *)
Theorem C87_unsigned_images m : decodes_where 4 4 16 (fun b => m = Wrapping \/ bc6_mode b <> 15) bc6u_code_texel (fun data w h image => decode_bc6 m data w h image false).
Proof. exact (bc6_images m false). Qed.
Theorem C87_signed_images m : decodes_where 4 4 16 (fun b => m = Wrapping \/ bc6_mode b <> 15) bc6s_code_texel (fun data w h image => decode_bc6 m data w h image true).
Proof. exact (bc6_images m true). Qed.
Print Assumptions C87_unsigned_images.
Print Assumptions C87_signed_images.
(** The others all panic. *)
Theorem C87_mode15_panics_code sgn data w h image k : sized 4 4 16 data w h image -> blocks w 4 * blocks h 4 * 16 <= zlen data -> w * h <= zlen image ->
  0 <= k < blocks w 4 * blocks h 4 -> bc6_mode (block_bytes 16 k data) = 15 -> decode_bc6 Checked data w h image sgn = Panic.
Proof. apply bc6_panics. intros s. apply ne_blocks. intros. apply ne_bc6. Qed.
Print Assumptions C87_mode15_panics_code.
(** Two colours and the tones between them in each block. *)
Theorem C87_contents m sgn w h pic : 0 <= w < 2 ^ 64 -> 0 <= h < 2 ^ 64 -> blocks w 4 * blocks h 4 * 16 < 2 ^ 63 -> 4 * (w * h) < 2 ^ 63 -> composed (bc6_pattern sgn) w h pic ->
  has_bc6_data (fun data w h image => decode_bc6 m data w h image sgn) w h pic.
Proof. exact (bc6_contents m sgn w h pic). Qed.
Print Assumptions C87_contents.

Example C87_images_ex : all_blocks 4 4 16 (fun b => Checked = Wrapping \/ bc6_mode b <> 15) (bc6_m3 ++ bc6_m30) 7 3 /\
  exists image', decode_bc6 Checked (bc6_m3 ++ bc6_m30) 7 3 (repeat 0 21) false = Ok (Done, image') /\ znth image' 0 = bc6u_code_texel bc6_m3 0 /\ znth image' 6 = bc6u_code_texel bc6_m30 2.
Proof.
  split; [intros k Hk; right; change (blocks 7 4 * blocks 3 4) with 2 in Hk; assert (k = 0 \/ k = 1) as [-> | ->] by lia; vm_compute; discriminate|].
  eexists. split; [vm_compute; reflexivity|]. split; vm_compute; reflexivity.
Qed.
Example C87_mode15_ex : sized 4 4 16 (bc6_m3 ++ bc6_m15) 7 3 (repeat 0 21) /\ bc6_mode (block_bytes 16 1 (bc6_m3 ++ bc6_m15)) = 15 /\ decode_bc6 Checked (bc6_m3 ++ bc6_m15) 7 3 (repeat 0 21) true = Panic.
Proof.
  assert (sized 4 4 16 (bc6_m3 ++ bc6_m15) 7 3 (repeat 0 21)) as S by (split; [repeat constructor; unfold is_byte; lia|vm_compute; intuition discriminate]).
  split; [exact S|]. split; [vm_compute; reflexivity|]. apply (C87_mode15_panics_code true _ 7 3 _ 1 S); vm_compute; (reflexivity || (split; (discriminate || reflexivity)) || discriminate).
Qed.
(** The sixteen tones from blue to red. *)
Definition red6 (ch : Z) : Z := if ch =? 0 then 495 else 10.
Definition blue6 (ch : Z) : Z := if ch =? 2 then 480 else 300.
Definition sunset (x y : Z) : Z := tones false red6 blue6 (znth sixteenths (15 - (4 * (y mod 4) + x mod 4))).
Lemma sunset_composed : composed (bc6_pattern false) 9 6 sunset.
Proof.
  intros bx by_ Hx Hy _ _. exists (fun t => tones false red6 blue6 (znth sixteenths (15 - t))). split.
  - exists red6, blue6, (fun t => 15 - t). split; [|split; [intros t Ht; lia|reflexivity]]. intros ch Hch. unfold fair_unsigned, red6, blue6. destruct (ch =? 0), (ch =? 2); lia.
  - intros x y Ix Iy _ _. unfold sunset. replace (x mod 4) with (x - 4 * bx) by (apply Z.mod_unique with bx; lia). replace (y mod 4) with (y - 4 * by_) by (apply Z.mod_unique with by_; lia). do 2 f_equal. ring.
Qed.
Example C87_contents_ex m : has_bc6_data (fun data w h image => decode_bc6 m data w h image false) 9 6 sunset /\
  map (fun x => sunset x 0) [0; 1; 2; 3] = [0xff0404c5; 0xff050369; 0xff070131; 0xff0a011a].
Proof. split; [|vm_compute; reflexivity]. apply C87_contents; [lia|lia|vm_compute; reflexivity|vm_compute; reflexivity|exact sunset_composed]. Qed.
