(** * C86: pictures that PVRTC can store with one pair of colours *)
From Verif Require Import Base BaseLemmas ModelColor ModelPvrtc SpecImage SpecBc SpecCut SpecEncode SpecPvrtc SpecContentPvr ProofContentPvr PropPvrtc.

Theorem C86_4bpp m a b w h pic : colour_a a -> colour_b b -> 0 < w -> 0 < h -> pow2 (blocks w 4) -> pow2 (blocks h 4) ->
  one_pair_4bpp a b w h pic -> has_pvr_data 4 (decode_pvrtc_4bpp m) w h pic.
Proof. exact (one_pair_4 m a b w h pic C28_pvrtc_4bpp_exact). Qed.
Print Assumptions C86_4bpp.
Theorem C86_4bpp_only m data w h image image' pic a b : pvr_sane 4 data w h image -> pow2 (blocks w 4) -> pow2 (blocks h 4) ->
  blocks w 4 * blocks h 4 * 8 <= zlen data -> w * h <= zlen image -> has_pair 4 data w h a b -> decode_pvrtc_4bpp m data w h image = Ok (Done, image') -> shows image' w h pic -> one_pair_4bpp a b w h pic.
Proof. exact (only_pair_4 m data w h image image' pic a b C28_pvrtc_4bpp_exact). Qed.
Print Assumptions C86_4bpp_only.
Theorem C86_2bpp m a b w h pic : colour_a a -> colour_b b -> 0 < w -> 0 < h -> pow2 (blocks w 8) -> pow2 (blocks h 4) ->
  one_pair_2bpp a b w h pic -> has_pvr_data 8 (decode_pvrtc_2bpp m) w h pic.
Proof. exact (one_pair_2 m a b w h pic C46_pvrtc_2bpp_exact). Qed.
Print Assumptions C86_2bpp.

Theorem C86_2bpp_only m data w h image image' pic a b : pvr_sane 8 data w h image -> pow2 (blocks w 8) -> pow2 (blocks h 4) ->
  blocks w 8 * blocks h 4 * 8 <= zlen data -> w * h <= zlen image -> has_pair 8 data w h a b -> decode_pvrtc_2bpp m data w h image = Ok (Done, image') -> shows image' w h pic ->
  forall x y, 0 <= x < w -> 0 <= y < h -> exists e, 0 <= e <= 8 /\ pic x y = mixture a b e.
Proof. exact (only_pair_2 m data w h image image' pic a b C46_pvrtc_2bpp_exact). Qed.
Print Assumptions C86_2bpp_only.

(** A checkerboard of white and translucent grey, 7 x 4 texels, with a hole. *)
Definition white (ch : Z) : Z := if ch =? 3 then 15 else 31.
Definition grey (ch : Z) : Z := if ch =? 3 then 6 else widen4 9.
Lemma white_a : colour_a white.
Proof. left. split; [unfold white; cbn; lia|]. split; [unfold white; cbn; lia|]. split; [exists 15; split; [lia|reflexivity]|reflexivity]. Qed.
Lemma grey_b : colour_b grey.
Proof. right. exists 9, 9, 9, 3. repeat split; lia. Qed.
Definition board (x y : Z) : Z := if (x =? 0) && (y =? 3) then looks white grey true 2 else if (x + y) mod 2 =? 0 then mixture white grey 0 else mixture white grey 8.
Example C86_4bpp_example : one_pair_4bpp white grey 7 4 board /\ has_pvr_data 4 (decode_pvrtc_4bpp Checked) 7 4 board /\ map (fun x => board x 3) [0; 1; 2; 3] = [0x00cdcdcd; 0xffffffff; 0x669c9c9c; 0xffffffff].
Proof.
  assert (one_pair_4bpp white grey 7 4 board) as H.
  { intros bx by_ Hx Hy Gx Gy. exists true. intros x y _ _ _ _. unfold board. destruct ((x =? 0) && (y =? 3))%bool; [exists 2; split; [lia|reflexivity]|]. destruct ((x + y) mod 2 =? 0); [exists 0|exists 3]; (split; [lia|reflexivity]). }
  split; [exact H|]. split; [|vm_compute; reflexivity].
  apply (C86_4bpp Checked white grey); [exact white_a|exact grey_b|lia|lia|exists 1; split; [lia|reflexivity]|exists 0; split; [lia|reflexivity]|exact H].
Qed.
Definition board2 (x y : Z) : Z := if (x + y) mod 2 =? 0 then mixture white grey 0 else mixture white grey 8.
Example C86_2bpp_example : one_pair_2bpp white grey 13 4 board2 /\ has_pvr_data 8 (decode_pvrtc_2bpp Wrapping) 13 4 board2.
Proof.
  assert (one_pair_2bpp white grey 13 4 board2) as H by (intros x y _ _; unfold board2; destruct ((x + y) mod 2 =? 0); auto).
  split; [exact H|].
  apply (C86_2bpp Wrapping white grey); [exact white_a|exact grey_b|lia|lia|exists 1; split; [lia|reflexivity]|exists 0; split; [lia|reflexivity]|exact H].
Qed.
(** Both blocks have the two colours. *)
Definition paired : list Z := [0x1b; 2; 3; 4; 0xff; 0xff; 0x99; 0x39; 5; 6; 7; 8; 0xfe; 0xff; 0x99; 0x39].
Example C86_4bpp_only_example : exists image', has_pair 4 paired 8 4 white grey /\ decode_pvrtc_4bpp Checked paired 8 4 (repeat 0 32) = Ok (Done, image') /\ one_pair_4bpp white grey 8 4 (fun x y => znth image' (y * 8 + x)).
Proof.
  destruct (decode_pvrtc_4bpp Checked paired 8 4 (repeat 0 32)) as [[st image']| |] eqn:E; [|vm_compute in E; discriminate E|vm_compute in E; discriminate E].
  assert (st = Done) as -> by (vm_compute in E; injection E as <- _; reflexivity).
  assert (has_pair 4 paired 8 4 white grey) as H.
  { intros k Hk ch Hch. change (blocks 8 4 * blocks 4 4) with 2 in Hk. assert (k = 0 \/ k = 1) as [-> | ->] by lia; assert (ch = 0 \/ ch = 1 \/ ch = 2 \/ ch = 3) as [-> | [-> | [-> | ->]]] by lia; vm_compute; split; reflexivity. }
  exists image'. split; [exact H|]. split; [reflexivity|].
  apply (C86_4bpp_only Checked paired 8 4 (repeat 0 32) image' _ white grey); [|exists 1; split; [lia|reflexivity]|exists 0; split; [lia|reflexivity]|vm_compute; discriminate|vm_compute; discriminate|exact H|exact E|intros x y _ _; reflexivity].
  split; [repeat constructor; unfold is_byte; lia|]. vm_compute. intuition discriminate.
Qed.
(** The same data, 2 bits per pixel: the first block is of mode 1. *)
Example C86_2bpp_only_example : exists image', has_pair 8 paired 16 4 white grey /\ decode_pvrtc_2bpp Checked paired 16 4 (repeat 0 64) = Ok (Done, image') /\
  (forall x y, 0 <= x < 16 -> 0 <= y < 4 -> exists e, 0 <= e <= 8 /\ znth image' (y * 16 + x) = mixture white grey e) /\ znth image' 1 = mixture white grey 7 /\ znth image' 8 = mixture white grey 8.
Proof.
  destruct (decode_pvrtc_2bpp Checked paired 16 4 (repeat 0 64)) as [[st image']| |] eqn:E; [|vm_compute in E; discriminate E|vm_compute in E; discriminate E].
  assert (st = Done /\ znth image' 1 = mixture white grey 7 /\ znth image' 8 = mixture white grey 8) as (-> & V1 & V2) by (vm_compute in E; injection E as <- <-; vm_compute; repeat split; reflexivity).
  assert (has_pair 8 paired 16 4 white grey) as H.
  { intros k Hk ch Hch. change (blocks 16 8 * blocks 4 4) with 2 in Hk. assert (k = 0 \/ k = 1) as [-> | ->] by lia; assert (ch = 0 \/ ch = 1 \/ ch = 2 \/ ch = 3) as [-> | [-> | [-> | ->]]] by lia; vm_compute; split; reflexivity. }
  exists image'. split; [exact H|]. split; [reflexivity|]. split; [|split; assumption].
  apply (C86_2bpp_only Checked paired 16 4 (repeat 0 64) image' (fun x y => znth image' (y * 16 + x)) white grey); [|exists 1; split; [lia|reflexivity]|exists 0; split; [lia|reflexivity]|vm_compute; discriminate|vm_compute; discriminate|exact H|exact E|intros x y _ _; reflexivity].
  split; [repeat constructor; unfold is_byte; lia|]. vm_compute. intuition discriminate.
Qed.
