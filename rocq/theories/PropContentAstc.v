(** * C85: pictures that ASTC can store without loss *)
From Verif Require Import Base BaseLemmas ModelColor SpecImage SpecFormats SpecBc ModelAstc SpecAstc SpecCut ProofCut SpecEncode ProofEncode SpecContentAstc ProofContentAstc PropAstc PropCut.

(** The data exists, has the size the format prescribes, and is decoded to the picture. *)
Definition has_astc_data (m : build) (bw bh w h : Z) (pic : Z -> Z -> Z) : Prop :=
  exists data, bytes data /\ zlen data = blocks w bw * blocks h bh * 16 /\
    forall image, w * h <= zlen image -> 4 * zlen image < 2 ^ 63 -> exists image', decode_astc m data w h bw bh image = Ok (Done, image') /\ shows image' w h pic.
Definition picture_size (bw bh w h : Z) : Prop := 0 <= w < 2 ^ 64 /\ 0 <= h < 2 ^ 64 /\ blocks w bw * blocks h bh * 16 < 2 ^ 63 /\ 4 * (w * h) < 2 ^ 63.

(** Whenever the numbers fit: each block may have two colours and the shades between them. *)
Theorem C85_shades m bw bh kind n w h pic : In (bw, bh) small_sizes -> room (bw * bh) kind n -> picture_size bw bh w h ->
  composed_of bw bh (shades_pattern (bw * bh) kind n) w h pic -> has_astc_data m bw bh w h pic.
Proof.
  intros HS HR (Hw & Hh & HZ & HA) HC. destruct (size_cases bw bh HS) as (Sw & Sh & Sz). assert (4 <= bw) by (clear - Sw; cbn [In] in Sw; lia). assert (4 <= bh) by (clear - Sh; cbn [In] in Sh; lia).
  apply (store bw bh 16 _ _ _ w h pic (astc_decodes m bw bh ltac:(lia) ltac:(lia) ltac:(lia)) ltac:(lia) ltac:(lia) ltac:(lia) Hw Hh HZ HA).
  intros bx by_ Hx Hy. destruct (HC bx by_ ltac:(lia) ltac:(lia) (block_pos w bw bx ltac:(lia) Hx) (block_pos h bh by_ ltac:(lia) Hy)) as (f & Hf & Q).
  destruct (shades_stored bw bh kind n f HS HR Hf) as (b & B & L & G & T). exists b. split; [exact B|]. split; [exact L|]. split; [exact G|].
  intros x y Ix Iy Ex Ey. pose proof (Z.mod_pos_bound x bw ltac:(lia)) as Mx. pose proof (Z.mod_pos_bound y bh ltac:(lia)) as My. pose proof (Z.div_mod x bw ltac:(lia)) as Dx. pose proof (Z.div_mod y bh ltac:(lia)) as Dy. rewrite Ex in Dx. rewrite Ey in Dy.
  assert (0 <= y mod bh * bw) by (apply Z.mul_nonneg_nonneg; lia). assert (y mod bh * bw <= (bh - 1) * bw) by (apply Z.mul_le_mono_nonneg_r; lia).
  rewrite T by lia. rewrite (Q x y) by lia. f_equal. rewrite Dy at 2. rewrite Dx at 2. ring.
Qed.

Lemma C85_two m bw bh kind n (ok : Z -> Prop) w h pic : In (bw, bh) small_sizes -> room (bw * bh) kind n -> (forall u, ok u -> exists c, of_kind kind c /\ u = rgba (c 0) (c 1) (c 2) (c 3)) ->
  picture_size bw bh w h -> two_colours bw bh ok w h pic -> has_astc_data m bw bh w h pic.
Proof.
  intros HS HR HC HZ HT. destruct (size_cases bw bh HS) as (Sw & Sh & _). pose proof HR as (_ & Hn & _). apply (C85_shades m bw bh kind n w h pic HS HR HZ). apply (two_composed bw bh kind n ok); [clear - Sw; cbn [In] in Sw; lia|clear - Sh; cbn [In] in Sh; lia|exact Hn|exact HC|exact HT].
Qed.
Ltac by_size H := cbn [In] in H; repeat (destruct H as [H|H]; [inversion H; subst; clear H|]); [..|contradiction].
Ltac has_room := first [unfold small_sizes; cbn [In]; tauto|unfold room, numbers; lia].
(** Blocks of up to 40 texels: any two colours with any alpha. *)
Theorem C85_two_colours m bw bh w h pic : In (bw, bh) [(4, 4); (5, 4); (5, 5); (6, 5); (6, 6); (8, 5)] -> picture_size bw bh w h ->
  two_colours bw bh any_colour w h pic -> has_astc_data m bw bh w h pic.
Proof.
  intros H HZ. by_size H; [apply (C85_two m _ _ 3 2 any_colour)|apply (C85_two m _ _ 3 2 any_colour)|apply (C85_two m _ _ 3 1 any_colour)..]; first [has_room|exact any_kind|exact HZ].
Qed.
(** Up to 60 texels: any two opaque colours. *)
Theorem C85_two_opaque m bw bh w h pic : In (bw, bh) [(8, 6); (10, 5); (10, 6)] -> picture_size bw bh w h ->
  two_colours bw bh opaque_colour w h pic -> has_astc_data m bw bh w h pic.
Proof. intros H HZ. by_size H; apply (C85_two m _ _ 2 1 opaque_colour); first [has_room|exact opaque_kind|exact HZ]. Qed.
(** 64 texels: any two greys with any alpha. *)
Theorem C85_two_greys m w h pic : picture_size 8 8 w h -> two_colours 8 8 grey w h pic -> has_astc_data m 8 8 w h pic.
Proof. intros HZ. apply (C85_two m _ _ 1 1 grey); first [has_room|exact grey_kind|exact HZ]. Qed.

(** A chess board of 7x5 pixels in blocks of 5x4 texels; each block has its own pair of colours. *)
Definition chess (x y : Z) : Z := if (x + y) mod 2 =? 0 then rgba 1 2 3 (10 * (y / 4)) else rgba 200 100 (50 + x / 5) 255.
Example C85_ex m : exists data image', zlen data = 64 /\ decode_astc m data 7 5 5 4 (repeat 9 35) = Ok (Done, image') /\ shows image' 7 5 chess /\
  nth 0 image' 0 = rgba 1 2 3 0 /\ nth 5 image' 0 = rgba 200 100 51 255 /\ nth 34 image' 0 = rgba 1 2 3 10.
Proof.
  destruct (C85_two_colours m 5 4 7 5 chess ltac:(cbn [In]; tauto) ltac:(unfold picture_size; split; [lia|split; [lia|split; [vm_compute; reflexivity|lia]]])) as (data & _ & L & Q).
  - intros bx by_ Hx Hy Lx Ly. exists (rgba 1 2 3 (10 * by_)), (rgba 200 100 (50 + bx) 255). unfold any_colour, rgba. split; [lia|]. split; [lia|].
    intros x y Ix Iy _ _. unfold chess. replace (y / 4) with by_ by (clear - Iy; Z.to_euclidean_division_equations; lia). replace (x / 5) with bx by (clear - Ix; Z.to_euclidean_division_equations; lia).
    destruct ((x + y) mod 2 =? 0); [left|right]; reflexivity.
  - destruct (Q (repeat 9 35)) as (image' & E & S); [vm_compute; discriminate|vm_compute; reflexivity|]. exists data, image'. split; [exact L|]. split; [exact E|]. split; [exact S|].
    split; [exact (S 0 0 ltac:(lia) ltac:(lia))|]. split; [exact (S 5 0 ltac:(lia) ltac:(lia))|exact (S 6 4 ltac:(lia) ltac:(lia))].
Qed.
(** Sixteen greys in one block of 4x4 texels. *)
Definition ramp (x y : Z) : Z := shade (fun ch => if ch =? 3 then 255 else 250) (fun ch => if ch =? 3 then 255 else 10) (znth (shares 5) (2 * (4 * y + x))).
Example C85_ex_shades m : exists data image', zlen data = 16 /\ decode_astc m data 4 4 4 4 (repeat 9 16) = Ok (Done, image') /\ shows image' 4 4 ramp /\
  nth 0 image' 0 = rgba 250 250 250 255 /\ nth 1 image' 0 = rgba 235 235 235 255 /\ nth 15 image' 0 = rgba 18 18 18 255.
Proof.
  destruct (C85_shades m 4 4 0 5 4 4 ramp ltac:(has_room) ltac:(has_room) ltac:(unfold picture_size; split; [lia|split; [lia|split; [vm_compute; reflexivity|lia]]])) as (data & _ & L & Q).
  - intros bx by_ Hx Hy Lx Ly. assert (bx = 0) as -> by lia. assert (by_ = 0) as -> by lia. exists (fun t => ramp (t mod 4) (t / 4)). split.
    + exists (fun ch => if ch =? 3 then 255 else 250), (fun ch => if ch =? 3 then 255 else 10), (fun t => 2 * t). unfold of_kind, is_byte.
      split; [split; [intros ch _; destruct (ch =? 3); lia|split; [reflexivity|split; reflexivity]]|]. split; [split; [intros ch _; destruct (ch =? 3); lia|split; [reflexivity|split; reflexivity]]|].
      split; [intros t Ht; change (2 ^ 5) with 32; lia|]. intros t Ht. unfold ramp. do 3 f_equal. clear; Z.to_euclidean_division_equations; lia.
    + intros x y Ix Iy _ _. f_equal; clear - Ix Iy; Z.to_euclidean_division_equations; lia.
  - destruct (Q (repeat 9 16)) as (image' & E & S); [vm_compute; discriminate|vm_compute; reflexivity|]. exists data, image'. split; [exact L|]. split; [exact E|]. split; [exact S|].
    split; [exact (S 0 0 ltac:(lia) ltac:(lia))|]. split; [exact (S 1 0 ltac:(lia) ltac:(lia))|exact (S 3 3 ltac:(lia) ltac:(lia))].
Qed.
(** A disc on a ground of another colour, in blocks of 10x6 and of 8x8. *)
Definition disc (u v x y : Z) : Z := if (x - 12) ^ 2 + (y - 9) ^ 2 <? 60 then u else v.
Lemma C85_disc bw bh (ok : Z -> Prop) u v w h : ok u -> ok v -> two_colours bw bh ok w h (disc u v).
Proof. intros U V bx by_ _ _ _ _. exists u, v. split; [exact U|]. split; [exact V|]. intros x y _ _ _ _. unfold disc. destruct (_ <? _); [left|right]; reflexivity. Qed.
Example C85_ex_opaque m : exists data, zlen data = 192 /\ forall image, 500 <= zlen image -> 4 * zlen image < 2 ^ 63 ->
  exists image', decode_astc m data 25 20 10 6 image = Ok (Done, image') /\ znth image' (9 * 25 + 12) = rgba 250 0 7 255 /\ znth image' (2 * 25 + 7) = rgba 3 99 4 255.
Proof.
  destruct (C85_two_opaque m 10 6 25 20 (disc (rgba 250 0 7 255) (rgba 3 99 4 255)) ltac:(cbn [In]; tauto) ltac:(unfold picture_size; split; [lia|split; [lia|split; [vm_compute; reflexivity|lia]]])) as (data & _ & L & Q).
  - apply C85_disc; [exists 250, 0, 7|exists 3, 99, 4]; unfold is_byte; repeat split; lia.
  - exists data. split; [exact L|]. intros image H1 H2. destruct (Q image H1 H2) as (image' & E & S). exists image'. split; [exact E|]. split; [exact (S 12 9 ltac:(lia) ltac:(lia))|exact (S 7 2 ltac:(lia) ltac:(lia))].
Qed.
Example C85_ex_greys m : exists data, zlen data = 192 /\ forall image, 500 <= zlen image -> 4 * zlen image < 2 ^ 63 ->
  exists image', decode_astc m data 25 20 8 8 image = Ok (Done, image') /\ znth image' (9 * 25 + 12) = rgba 77 77 77 255 /\ znth image' (2 * 25 + 7) = rgba 3 3 3 0.
Proof.
  destruct (C85_two_greys m 25 20 (disc (rgba 77 77 77 255) (rgba 3 3 3 0)) ltac:(unfold picture_size; split; [lia|split; [lia|split; [vm_compute; reflexivity|lia]]])) as (data & _ & L & Q).
  - apply C85_disc; [exists 77, 255|exists 3, 0]; unfold is_byte; repeat split; lia.
  - exists data. split; [exact L|]. intros image H1 H2. destruct (Q image H1 H2) as (image' & E & S). exists image'. split; [exact E|]. split; [exact (S 12 9 ltac:(lia) ltac:(lia))|exact (S 7 2 ltac:(lia) ltac:(lia))].
Qed.

Print Assumptions C85_shades.
Print Assumptions C85_two_colours.
Print Assumptions C85_two_opaque.
Print Assumptions C85_two_greys.
