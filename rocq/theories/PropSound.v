(** * C65: what a file that is unpacked at all shows *)
From Verif Require Import Base BaseLemmas ModelCrn ModelCrunch ModelUnity SpecImage SpecCrnHeader SpecCrnLevel SpecCrnFile SpecCrnSound SpecUnity SpecUnityFile SpecUnitySound
  ProofCrnHeader ProofCrnGrid ProofCrnLevel ProofCrnFile ProofCrnDecode ProofCrnExample PropCrunch PropUnity ProofCrnSoundFile ProofUnitySound ProofUnitySoundFile.

(** Whatever the bytes of a crunch file are: there are palettes of the sizes
    announced by the header, the same for all levels, such that every level that is
    unpacked is a picture made of chunks using existing entries of these palettes. *)
Theorem C65_crunch_sound m d : bytes d -> exists ce cs ae al, palette_sizes d ce cs ae al /\
  forall level f dxt, 0 <= level -> crunch_unpack_level m d (zlen d) level = Ok (f, dxt) ->
  let W := level_cols (number d 12 2) level in
  let H := level_cols (number d 14 2) level in
  let planes := planes_of f ce cs ae al in
  exists P, all_fit planes P W H (number d 17 1) /\ dxt = chunk_picture planes P W H (number d 17 1).
Proof. exact (crunch_sound m d). Qed.

(** The words of a block: its end points and its selectors are always among the
    few of the palettes, so a DXT1 file shows no more different pairs of colours and
    no more different selectors than its header announces. *)
Theorem C65_crunch_few m d : bytes d -> exists ce cs, zlen ce = number d 39 2 /\ (0 < number d 39 2 -> zlen cs = number d 47 2) /\
  forall level dxt q, 0 <= level -> crunch_unpack_level m d (zlen d) level = Ok (0, dxt) ->
  0 <= q < number d 17 1 * level_cols (number d 14 2) level * level_cols (number d 12 2) level ->
  exists c s, In c ce /\ In s cs /\ block_bytes 8 q dxt = le 4 c ++ le 4 s.
Proof.
  intros Hb. destruct (C65_crunch_sound m d Hb) as (ce & cs & ae & al & (S1 & S2 & _) & A). exists ce, cs.
  split; [exact S1|]. split; [intros Hp; rewrite S2; destruct (Z.eqb_spec (number d 39 2) 0); [lia|reflexivity]|].
  intros level dxt q Hl E Hq. destruct (A level 0 dxt Hl E) as (P & F & ->). clear A E.
  pose proof (number_range d 12 2 Hb ltac:(lia)) as Nw. pose proof (number_range d 14 2 Hb ltac:(lia)) as Nh.
  destruct (level_cols_eq (number d 12 2) level ltac:(lia) ltac:(lia)) as [_ HW]. destruct (level_cols_eq (number d 14 2) level ltac:(lia) ltac:(lia)) as [_ HH].
  set (W := level_cols (number d 12 2) level) in *. set (H := level_cols (number d 14 2) level) in *. set (faces := number d 17 1) in *.
  change (planes_of 0 ce cs ae al) with [color_plane ce cs] in *. unfold chunk_picture.
  assert (forall c k, drawn [color_plane ce cs] c k = le 4 (znth ce (ch_end c 0 (tile_of (ch_cut c) k))) ++ le 4 (znth cs (ch_sel c 0 k))) as DR.
  { intros c k. unfold drawn. change (plane_nos [color_plane ce cs]) with [0]. cbn [flat_map]. rewrite app_nil_r. reflexivity. }
  rewrite (block_of_pieces 8); [|lia|lia|intros q' _; rewrite DR, zlen_app, !zlen_le by lia; reflexivity|exact Hq].
  rewrite DR. set (x := q mod W). set (y := (q / W) mod H).
  assert (0 <= x < W) as Hx by (apply Z.mod_pos_bound; lia). assert (0 <= y < H) as Hy by (apply Z.mod_pos_bound; lia).
  assert (0 <= q / W < faces * H) as Q1 by (split; [apply Z.div_pos; lia|apply Z.div_lt_upper_bound; [lia|rewrite Z.mul_comm; lia]]).
  assert (0 <= q / W / H < faces) as Q2 by (split; [apply Z.div_pos; lia|apply Z.div_lt_upper_bound; [lia|rewrite Z.mul_comm; lia]]).
  pose proof (Z.mod_pos_bound x 2 ltac:(lia)). pose proof (Z.mod_pos_bound y 2 ltac:(lia)).
  destruct (F (q / W / H) (x / 2) (y / 2) Q2) as [FC FP].
  1,2: unfold chunk_cols, chunk_rows; split; [apply Z.div_pos; lia|]; apply Z.div_lt_upper_bound; [lia|].
  { pose proof (Z.div_mod (W + 1) 2 ltac:(lia)). pose proof (Z.mod_pos_bound (W + 1) 2 ltac:(lia)). lia. }
  { pose proof (Z.div_mod (H + 1) 2 ltac:(lia)). pose proof (Z.mod_pos_bound (H + 1) 2 ltac:(lia)). lia. }
  set (c := P (q / W / H) (x / 2) (y / 2)) in *. set (k := x mod 2 + 2 * (y mod 2)).
  destruct (FP 0 ltac:(cbn; lia)) as [FE FS]. change (pl_ends (plane_at [color_plane ce cs] 0)) with (zlen ce) in FE. change (pl_sels (plane_at [color_plane ce cs] 0)) with (zlen cs) in FS.
  exists (znth ce (ch_end c 0 (tile_of (ch_cut c) k))), (znth cs (ch_sel c 0 k)).
  destruct (tiles_ok _ FC) as (_ & _ & tl & _ & TR). destruct (TR k ltac:(unfold k; lia)) as [_ T]. specialize (FE _ T). specialize (FS k ltac:(unfold k; lia)).
  split; [unfold znth; apply nth_In; unfold zlen in FE; lia|]. split; [unfold znth; apply nth_In; unfold zlen in FS; lia|reflexivity].
Qed.

(** A file with arbitrary bytes for its level, which no encoder wrote. *)
Definition C65_bad : list Z := firstn 152 ex_file1 ++ [17; 99; 203; 4; 170].
Example C65_ex m : bytes C65_bad /\ number C65_bad 39 2 = 3 /\ number C65_bad 47 2 = 2 /\
  crunch_unpack_level m C65_bad (zlen C65_bad) 0 = Ok (0,
    [35; 42; 11; 152; 8; 88; 234; 84; 35; 42; 11; 152; 8; 88; 234; 84; 35; 42; 11; 152; 247; 45; 232; 51;
     35; 42; 11; 152; 247; 45; 232; 51; 85; 58; 43; 209; 247; 45; 232; 51; 35; 42; 11; 152; 247; 45; 232; 51;
     85; 58; 43; 209; 8; 88; 234; 84; 85; 58; 43; 209; 8; 88; 234; 84; 159; 139; 250; 58; 247; 45; 232; 51]).
Proof.
  split; [|split; [reflexivity|split; [reflexivity|destruct m; vm_compute; reflexivity]]].
  apply bytesb_ok. vm_compute. reflexivity.
Qed.

(** The same for Unity files: every block of an unpacked level is made of
    existing entries of the palettes; in the formats with halves, of two colours
    of five bits per component and the version of the selectors for the way of
    halving. *)
Theorem C65_unity_sound m d : bytes d -> exists ce cs ae al, u_palette_sizes d ce cs ae al /\
  (has_halves (number d 18 1) = true -> Forall five_bits ce) /\
  forall level f dxt, 0 <= level -> unity_crunch_unpack_level m d (zlen d) level = Ok (f, dxt) ->
  let n := number d 17 1 * level_cols (number d 14 2) level * level_cols (number d 12 2) level in
  exists block, (forall q, 0 <= q < n -> u_drawable f ce cs ae al (block q)) /\ dxt = flat_map block (zrange 0 n).
Proof. exact (unity_sound m d). Qed.

(** The words of the blocks of DXT1 and ETC1S are among the ones of the palettes. *)
Theorem C65_unity_few m d : bytes d -> exists ce cs, zlen ce = number d 39 2 /\
  (0 < number d 39 2 -> number d 18 1 = 0 \/ number d 18 1 = 13 -> zlen cs = number d 47 2) /\
  forall level f dxt q, 0 <= level -> f = 0 \/ f = 13 -> unity_crunch_unpack_level m d (zlen d) level = Ok (f, dxt) ->
  0 <= q < number d 17 1 * level_cols (number d 14 2) level * level_cols (number d 12 2) level ->
  exists c s, In c ce /\ In s cs /\ block_bytes 8 q dxt = le 4 c ++ le 4 s.
Proof.
  intros Hb. destruct (C65_unity_sound m d Hb) as (ce & cs & ae & al & (S1 & S2 & _) & _ & A). exists ce, cs.
  split; [exact S1|]. split.
  { intros Hp Hf. rewrite S2. assert (has_halves (number d 18 1) = false) as -> by (destruct Hf as [->| ->]; reflexivity).
    destruct (Z.eqb_spec (number d 39 2) 0); lia. }
  intros level f dxt q Hl Hf E Hq. destruct (A level f dxt Hl E) as (block & F & ->). clear A E.
  assert (u_drawable f ce cs ae al = plain_block [color_plane ce cs]) as D by (destruct Hf as [->| ->]; reflexivity). rewrite D in F.
  assert (forall b, plain_block [color_plane ce cs] b -> exists c s, In c ce /\ In s cs /\ b = le 4 c ++ le 4 s) as P.
  { intros b (e & s & R & ->). destruct (R 0 ltac:(cbn; lia)) as [R1 R2]. cbn in R1, R2. exists (znth ce (e 0)), (znth cs (s 0)).
    split; [unfold znth; apply nth_In; unfold zlen in R1; lia|]. split; [unfold znth; apply nth_In; unfold zlen in R2; lia|].
    change (plane_nos [color_plane ce cs]) with [0]. cbn [flat_map]. rewrite app_nil_r. reflexivity. }
  rewrite (block_of_pieces 8); [exact (P _ (F q Hq))|lia|lia| |exact Hq].
  intros q' Hq'. destruct (P _ (F q' Hq')) as (c & s & _ & _ & ->). rewrite zlen_app, !zlen_le by lia. reflexivity.
Qed.

(** A colour modifier table has three bits; for palette entries that respect
    this, the heads are the ones of the format. *)
Theorem C65_head a b flip : five_bits a -> five_bits b -> color_byte a 3 < 8 -> color_byte b 3 < 8 -> loose_head a b flip = etc_head a b flip.
Proof. exact (loose_head_strict a b flip). Qed.
Example C65_head_ex : five_bits 0x021f0803 /\ five_bits 0x050a0908 /\ loose_head 0x021f0803 0x050a0908 1 = [20; 68; 245; 85] /\ loose_head 0x020b0a09 0x05090b08 1 = [79; 81; 94; 87].
Proof.
  assert (forall v, 0 <= v < 2 ^ 32 -> all_below 4 (fun c => color_byte v c <? 32) = true -> five_bits v) as K.
  { intros v Hv T. split; [exact Hv|]. intros c Hc. pose proof (all_below_spec _ _ T c Hc) as X. cbv beta in X. lia. }
  split; [apply K; [lia|reflexivity]|]. split; [apply K; [lia|reflexivity]|]. split; reflexivity.
Qed.

(** Arbitrary bytes for the level of an ETC2 file. *)
Definition C65_unity_bad : list Z := firstn 186 eu_file1 ++ [99; 14; 200; 7].
Example C65_unity_ex m : bytes C65_unity_bad /\ number C65_unity_bad 39 2 = 3 /\ number C65_unity_bad 63 2 = 2 /\ has_halves (number C65_unity_bad 18 1) = true /\
  unity_crunch_unpack_level m C65_unity_bad (zlen C65_unity_bad) 0 = Ok (12,
    [19; 7; 74; 247; 31; 136; 190; 106; 10; 68; 153; 245; 203; 92; 14; 247; 19; 7; 96; 244; 71; 214; 207; 232; 169; 67; 145; 169; 203; 92; 14; 247;
     22; 22; 74; 247; 31; 136; 190; 106; 152; 56; 24; 75; 147; 11; 68; 140; 19; 7; 74; 247; 31; 136; 190; 106; 152; 56; 24; 75; 203; 92; 14; 247]).
Proof.
  split; [apply bytesb_ok; vm_compute; reflexivity|]. split; [reflexivity|]. split; [reflexivity|]. split; [reflexivity|]. destruct m; vm_compute; reflexivity.
Qed.
Print Assumptions C65_crunch_sound.
Print Assumptions C65_crunch_few.
Print Assumptions C65_unity_sound.
Print Assumptions C65_unity_few.
Print Assumptions C65_head.
