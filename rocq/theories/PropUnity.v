(** * Whole Unity crunch files (C43, C57, C58). *)
From Verif Require Import ProofCrnFaces.
From Verif Require Import Base BaseLemmas ModelColor ModelBc ModelCrn ModelCrunch ModelUnity SpecImage SpecBc SpecEtc SpecCrn SpecCrnHeader SpecCrnLevel SpecCrnFile
  SpecCrnTexel SpecUnity SpecUnityFile
  ProofCrnBits ProofCrnRead ProofCrnModel ProofCrnGrid ProofCrnFile ProofCrnWhole ProofCrnExample ProofCrnKeep ProofCrnDecode ProofUnityWhole ProofUnityFile PropCrunch.

(** ** Example files
    The first one: ETC2 with alpha, 8 x 8 texels, one level, three colour end
    points, two of everything else. *)
Definition eu_file1 : list Z :=
  [72; 120; 0; 74; 0; 0; 0; 0; 0; 190; 0; 0; 0; 8; 0; 8; 1; 1; 12; 0; 0; 0; 0; 0; 0; 0; 0; 0; 0; 0; 0; 0; 0; 0; 0; 125; 0; 0; 15;
   0; 3; 0; 0; 140; 0; 0; 17; 0; 2; 0; 0; 157; 0; 0; 10; 0; 2; 0; 0; 167; 0; 0; 19; 0; 2; 0; 51; 0; 0; 74; 0; 0; 0; 186; 1; 150;
   96; 128; 0; 0; 0; 0; 0; 24; 86; 64; 0; 57; 128; 0; 0; 0; 0; 0; 16; 88; 0; 83; 0; 0; 0; 0; 0; 0; 0; 128; 1; 76; 0; 0; 0; 0; 0;
   0; 2; 0; 5; 48; 0; 0; 0; 0; 0; 0; 8; 0; 81; 96; 2; 0; 0; 20; 201; 156; 98; 8; 158; 54; 128; 34; 0; 65; 160; 2; 0; 0; 0; 82;
   14; 126; 1; 245; 43; 24; 110; 4; 128; 0; 81; 96; 2; 0; 0; 20; 201; 156; 111; 1; 1; 32; 2; 0; 5; 224; 31; 33; 68; 90; 191; 32;
   144; 178; 177; 241; 192; 80; 91; 230; 173; 0].
(** DXT1, three colour end points, two selectors: 4 x 4 texels; 8 x 4 texels,
    two faces. *)
Definition eu_head (w h faces size : Z) : list Z :=
  [72; 120; 0; 74; 0; 0; 0; 0; 0; size; 0; 0; 0; w; 0; h; 1; faces; 0; 0; 0; 0; 0; 0; 0; 0; 0; 0; 0; 0; 0; 0; 0; 0; 0; 106; 0; 0;
   27; 0; 3; 0; 0; 133; 0; 0; 17; 0; 2; 0; 0; 150; 0; 0; 0; 0; 0; 0; 0; 150; 0; 0; 0; 0; 0; 0; 32; 0; 0; 74; 0; 0; 0; 150].
Definition eu_body : list Z :=
  [1; 150; 96; 128; 0; 0; 0; 0; 0; 24; 86; 64; 0; 57; 128; 0; 0; 0; 0; 0; 16; 88; 0; 83; 0; 0; 0; 0; 0; 0; 0; 128; 0; 81; 96; 2;
   0; 0; 20; 192; 5; 22; 0; 32; 0; 1; 76; 44; 71; 48; 44; 65; 145; 210; 5; 41; 77; 115; 192; 0; 65; 160; 2; 0; 0; 0; 82; 14; 126;
   1; 245; 43; 24; 110; 4; 128].
Definition eu_file2 : list Z := eu_head 4 4 1 151 ++ eu_body ++ [210].
Definition eu_file3 : list Z := eu_head 8 4 2 153 ++ eu_body ++ [210; 249; 128].

(** Codes and their transmission. *)
Definition sz_refs : list Z := repeat 0 16 ++ [1] ++ repeat 0 83 ++ [1].
Definition cl_refs := lengths21 [(18, 1); (1, 1)].
Definition it_refs := sending sz_refs cl_refs 19 [Sym cl_refs 18; Raw 7 5; Sym cl_refs 1; Sym cl_refs 18; Raw 7 72; Sym cl_refs 1].
Definition cl_four := lengths21 [(4, 1); (20, 1)].
Definition it_four := sending (repeat 4 16) cl_four 13 [Sym cl_four 4; Sym cl_four 20; Raw 6 8].
Definition it_six64 := sending (repeat 6 64) cl_six 9 [Sym cl_six 6; Sym cl_six 20; Raw 6 56].
Lemma coding_refs : coding sz_refs it_refs.
Proof.
  split; [apply code_lengthsb_ok; reflexivity|]. apply sending_ok; [lia|reflexivity|reflexivity|].
  apply spells_many_zeros, spells_length; [lia|]. apply spells_many_zeros, spells_length; [lia|]. apply spells_end.
Qed.
Lemma coding_four : coding (repeat 4 16) it_four.
Proof.
  split; [apply code_lengthsb_ok; reflexivity|]. apply sending_ok; [lia|reflexivity|reflexivity|].
  apply spells_length; [lia|]. apply (spells_many_repeat cl_four 4 8 []); [lia|]. apply spells_end.
Qed.
Lemma coding_six64 : coding (repeat 6 64) it_six64.
Proof.
  split; [apply code_lengthsb_ok; reflexivity|]. apply sending_ok; [lia|reflexivity|reflexivity|].
  apply spells_length; [lia|]. apply (spells_many_repeat cl_six 6 56 []); [lia|]. apply spells_end.
Qed.

Definition eu_sizes (x : kind) : list Z := match x with Chunks => sz_refs | ColorEnd => [1; 2; 2] | _ => [1; 1] end.
Definition eu_sels := table [[3; 9; 15; 8; 0; 7; 13; 4]; [10; 12; 6; 1; 11; 8; 1; 2]].
Definition eu_contents1 : contents := mkContents eu_sizes
  (table [[19; 7; 3; 2]; [1; 2; 15; 3]; [13; 0; 1; 2]]) eu_sels
  (table [[19; 7]; [3; 15]])
  (table [[1; 60; 33; 17; 5; 42; 63; 8]; [9; 2; 50; 44; 31; 7; 0; 20]]).
Definition eu_contents : contents := mkContents eu_sizes
  (table [[5; 17; 3; 19; 0; 11]; [2; 1; 18; 7; 9; 0]; [10; 10; 10; 13; 14; 15]]) eu_sels
  (fun _ _ => 0) (fun _ _ => 0).

Definition eu_fits (data : list Z) (ofs size : Z) (items : list item) : bool :=
  (0 <=? ofs) && (1 <=? size) && (ofs + size <? zlen data) && forallb item_okb items &&
  prefixb (flat_map item_bits items) (bit_stream (section data ofs size)).
Lemma eu_fits_ok data ofs size items : eu_fits data ofs size items = true -> holds data ofs size items.
Proof. unfold eu_fits. rewrite !andb_true_iff, !Z.leb_le, !Z.ltb_lt. intros H. decompose [and] H. apply holds_ok; assumption. Qed.

Definition eu_ready (data : list Z) : bool :=
  let h := header_at data in
  bytesb data && (74 <=? zlen data) && (header_room data <=? zlen data) && well_formed data && negb (is_etc (h_format h)) &&
  (p_num (h_color_endpoints h) =? 3) && (p_num (h_color_selectors h) =? 2) && (p_num (h_alpha_endpoints h) =? 0) &&
  eu_fits data (h_tables_ofs h) (h_tables_size h) (it_refs ++ it_ends ++ it_sels ++ [] ++ []) &&
  eu_fits data (p_ofs (h_color_endpoints h)) (p_size (h_color_endpoints h))
    (it_five ++ it_five ++ color_end_items (repeat 5 20) (repeat 5 20) (k_color_ends eu_contents) 3) &&
  eu_fits data (p_ofs (h_color_selectors h)) (p_size (h_color_selectors h))
    (it_four ++ selector_items (repeat 4 16) (k_color_sels eu_contents) 2).
Lemma eu_written data : eu_ready data = true -> u_written data eu_contents.
Proof.
  unfold eu_ready. cbv zeta. rewrite !andb_true_iff, !Z.leb_le, !Z.eqb_eq, negb_true_iff. intros H. decompose [and] H. clear H.
  split; [apply bytesb_ok; assumption|]. split; [assumption|]. split; [assumption|]. split; [assumption|].
  assert (has_color data) as HC by (unfold has_color; lia). assert (~ has_alpha data) as HA by (unfold has_alpha; lia).
  split; [left; exact HC|]. split; [|split; [|tauto]].
  - exists it_refs, it_ends, it_sels, [], []. split; [exact coding_refs|]. split; [intros _; split; [exact coding_ends|exact coding_sels]|].
    split; [tauto|]. split; [tauto|]. split; [auto|]. apply eu_fits_ok; assumption.
  - intros _. split.
    + match goal with E : is_etc _ = false |- _ => rewrite E end. exists (repeat 5 20), (repeat 5 20), it_five, it_five. split; [exact coding_five|]. split; [exact coding_five|].
      match goal with E : p_num (h_color_endpoints _) = 3 |- _ => rewrite E end. apply eu_fits_ok; assumption.
    + exists (repeat 4 16), it_four. split; [exact coding_four|]. split; [intros; apply table_range; [lia|reflexivity]|].
      match goal with E : p_num (h_color_selectors _) = 2 |- _ => rewrite E end. apply eu_fits_ok; assumption.
Qed.
Lemma eu_written2 : u_written eu_file2 eu_contents.
Proof. apply eu_written. vm_compute. reflexivity. Qed.
Lemma eu_written3 : u_written eu_file3 eu_contents.
Proof. apply eu_written. vm_compute. reflexivity. Qed.

Definition eu_ready1 (data : list Z) : bool :=
  let h := header_at data in
  bytesb data && (74 <=? zlen data) && (header_room data <=? zlen data) && well_formed data && is_etc (h_format h) &&
  (p_num (h_color_endpoints h) =? 3) && (p_num (h_color_selectors h) =? 2) && (p_num (h_alpha_endpoints h) =? 2) && (p_num (h_alpha_selectors h) =? 2) &&
  eu_fits data (h_tables_ofs h) (h_tables_size h) (it_refs ++ it_ends ++ it_sels ++ it_sels ++ it_sels) &&
  eu_fits data (p_ofs (h_color_endpoints h)) (p_size (h_color_endpoints h))
    (it_five ++ etc_end_items (repeat 5 20) (k_color_ends eu_contents1) 3) &&
  eu_fits data (p_ofs (h_color_selectors h)) (p_size (h_color_selectors h))
    (it_four ++ selector_items (repeat 4 16) (k_color_sels eu_contents1) 2) &&
  eu_fits data (p_ofs (h_alpha_endpoints h)) (p_size (h_alpha_endpoints h))
    (it_five ++ alpha_end_items (repeat 5 20) (k_alpha_ends eu_contents1) 2) &&
  eu_fits data (p_ofs (h_alpha_selectors h)) (p_size (h_alpha_selectors h))
    (it_six64 ++ selector_items (repeat 6 64) (k_alpha_sels eu_contents1) 2).
Lemma eu_written1 : u_written eu_file1 eu_contents1.
Proof.
  assert (eu_ready1 eu_file1 = true) as H by (vm_compute; reflexivity). revert H. generalize eu_file1. intros data.
  unfold eu_ready1. cbv zeta. rewrite !andb_true_iff, !Z.leb_le, !Z.eqb_eq. intros H. decompose [and] H. clear H.
  split; [apply bytesb_ok; assumption|]. split; [assumption|]. split; [assumption|]. split; [assumption|].
  assert (has_color data) as HC by (unfold has_color; lia). assert (has_alpha data) as HA by (unfold has_alpha; lia).
  split; [left; exact HC|]. split; [|split].
  - exists it_refs, it_ends, it_sels, it_sels, it_sels. split; [exact coding_refs|]. split; [intros _; split; [exact coding_ends|exact coding_sels]|].
    split; [intros _; split; exact coding_sels|]. split; [tauto|]. split; [tauto|]. apply eu_fits_ok; assumption.
  - intros _. split.
    + match goal with E : is_etc _ = true |- _ => rewrite E end. exists (repeat 5 20), it_five. split; [exact coding_five|]. split; [intros; apply table_range; [lia|reflexivity]|].
      match goal with E : p_num (h_color_endpoints _) = 3 |- _ => rewrite E end. apply eu_fits_ok; assumption.
    + exists (repeat 4 16), it_four. split; [exact coding_four|]. split; [intros; apply table_range; [lia|reflexivity]|].
      match goal with E : p_num (h_color_selectors _) = 2 |- _ => rewrite E end. apply eu_fits_ok; assumption.
  - intros _. split.
    + exists (repeat 5 20), it_five. split; [exact coding_five|].
      match goal with E : p_num (h_alpha_endpoints _) = 2 |- _ => rewrite E end. apply eu_fits_ok; assumption.
    + exists (repeat 6 64), it_six64. split; [exact coding_six64|]. split; [intros; apply table_range; [lia|reflexivity]|].
      match goal with E : p_num (h_alpha_selectors _) = 2 |- _ => rewrite E end. apply eu_fits_ok; assumption.
Qed.

(** The symbols of the levels. *)
Definition eu_level1 : u_level := Halves (mkESymbols (table [[16; 100]] 0) (table [[1; 2; 1; 0]] 0) (table [[2; 1; 0; 1]] 0)
  (table [[1; 0; 1; 1]] 0) (table [[1; 0; 0; 1]] 0) (table [[0; 1; 1; 0]] 0)).
Definition eu_level2 : u_level := Plain (mkUSymbols (table [[100]] 0) (fun _ => table [[1; 2; 0; 2]] 0) (fun _ => table [[1; 0; 0; 1]] 0)).
Definition eu_level3 : u_level := Plain (mkUSymbols (table [[100; 16]] 0) (fun _ => table [[1; 0; 0; 0; 2; 0; 1; 2]] 0) (fun _ => table [[1; 0; 0; 1; 1; 1; 0; 0]] 0)).

Lemma eu_level_written data k L : u_level_fits data k L ->
  (0 <? levels_of data) && (level_start data 0 <? level_stop data 0) && (level_stop data 0 <=? zlen data) && (1 <=? number data 17 1) &&
  forallb (fun kv => codedb (k_sizes k (fst kv)) (snd kv)) (u_stream data k 0 L) &&
  prefixb (symbol_bits (k_sizes k) (u_stream data k 0 L)) (bit_stream (section data (level_start data 0) (level_stop data 0 - level_start data 0))) = true ->
  u_level_written data k 0 L.
Proof.
  rewrite !andb_true_iff, !Z.leb_le, !Z.ltb_lt. intros HF (((((H1 & H2) & H3) & H4) & H5) & H6).
  split; [lia|]. split; [exact H1|]. split; [exact H2|]. split; [exact H3|]. split; [exact H4|]. split; [exact HF|]. split.
  - intros kv I. rewrite forallb_forall in H5. apply codedb_ok, H5, I.
  - eexists. apply prefixb_ok, H6.
Qed.
Lemma eu_plain_fits data r e s : number data 18 1 = 0 -> p_num (h_color_endpoints (header_at data)) = 3 -> p_num (h_color_selectors (header_at data)) = 2 ->
  forallb (forallb (fun v => (0 <=? v) && (v <? 256))) r = true ->
  forallb (forallb (fun v => (0 <=? v) && (v <? 3))) e = true ->
  forallb (forallb (fun v => (0 <=? v) && (v <? 2))) s = true ->
  u_level_fits data eu_contents (Plain (mkUSymbols (table r 0) (fun _ => table e 0) (fun _ => table s 0))).
Proof.
  intros E1 E2 E3 H1 H2 H3. unfold u_level_fits. rewrite E1.
  assert (u_planes_of 0 (u_ce data eu_contents) (u_cs data eu_contents) (u_ae data eu_contents) (u_al data eu_contents) =
    [color_plane (color_ends (k_color_ends eu_contents) 3) (u_color_sels 0 (k_color_sels eu_contents) 2)]) as ->.
  { unfold u_ce, u_cs. rewrite E2, E3. change (h_format (header_at data)) with (number data 18 1). rewrite E1. reflexivity. }
  split; [discriminate|]. split; [intros g; apply table_range; [lia|assumption]|]. split; intros p n Hp; change (zlen _) with 1 in Hp; assert (p = 0) as -> by lia.
  - change (0 <= table e 0 n < 3). apply table_range; [lia|assumption].
  - change (0 <= table s 0 n < 2). apply table_range; [lia|assumption].
Qed.
Lemma eu_level_written2 : u_level_written eu_file2 eu_contents 0 eu_level2.
Proof. apply eu_level_written; [apply eu_plain_fits; reflexivity|vm_compute; reflexivity]. Qed.
Lemma eu_level_written3 : u_level_written eu_file3 eu_contents 0 eu_level3.
Proof. apply eu_level_written; [apply eu_plain_fits; reflexivity|vm_compute; reflexivity]. Qed.
Lemma eu_fits1 : u_level_fits eu_file1 eu_contents1 eu_level1.
Proof.
  split; [reflexivity|]. change (number eu_file1 18 1 =? 12) with true.
  change (u_ce eu_file1 eu_contents1) with (etc_ends true (k_color_ends eu_contents1) 3).
  change (u_cs eu_file1 eu_contents1) with (u_color_sels 12 (k_color_sels eu_contents1) 2).
  change (u_ae eu_file1 eu_contents1) with (alpha_ends (k_alpha_ends eu_contents1) 2).
  change (u_al eu_file1 eu_contents1) with (u_alpha_sels 12 (k_alpha_sels eu_contents1) 2).
  split; [intros g; apply table_range; [lia|reflexivity]|].
  split; [intros n; change (zlen _) with 3; apply table_range; [lia|reflexivity]|].
  split; [intros n; change (zlen _) with 3; apply table_range; [lia|reflexivity]|].
  split; [intros n; change (zlen _) with 4; assert (0 <= table [[1; 0; 0; 1]] 0 n < 2) by (apply table_range; [lia|reflexivity]); cbn [e_sel]; lia|].
  split.
  - intros _. split; intros n; [change (zlen _) with 2; apply table_range; [lia|reflexivity]|].
    change (zlen _) with 13. assert (0 <= table [[0; 1; 1; 0]] 0 n < 2) by (apply table_range; [lia|reflexivity]). cbn [e_asel]. lia.
  - replace (etc_ends true (k_color_ends eu_contents1) 3) with [33752851; 85068052; 118688001] by (vm_compute; reflexivity).
    repeat constructor; vm_compute; congruence.
Qed.
Lemma eu_level_written1 : u_level_written eu_file1 eu_contents1 0 eu_level1.
Proof. apply eu_level_written; [exact eu_fits1|vm_compute; reflexivity]. Qed.

(** ** C43 *)
(** Every level of every file is unpacked to the stored blocks. *)
Definition C43_statement : Prop := forall m data k level L,
  u_written data k -> u_level_written data k level L ->
  unity_crunch_unpack_level m data (zlen data) level = Ok (number data 18 1, u_blocks_of_level data k level L).
(** Missing: odd numbers of block columns in builds with overflow checks and
    several faces with an odd number of block rows (both refuted below), levels
    of 4 GiB (16384 x 16384 blocks of 16 bytes).  None of these can be unpacked:
    [C43_unity_level_code]. *)
Theorem C43_unity_level_partial m data k level L :
  u_written data k -> u_level_written data k level L ->
  m = Wrapping \/ level_cols (number data 12 2) level mod 2 = 0 ->
  number data 17 1 = 1 \/ level_cols (number data 14 2) level mod 2 = 0 ->
  level_cols (number data 12 2) level * level_cols (number data 14 2) level * u_block_size (number data 18 1) < 2 ^ 32 ->
  unity_crunch_unpack_level m data (zlen data) level = Ok (number data 18 1, u_blocks_of_level data k level L).
Proof. intros H1 H2 H3 H4 H5. exact (unity_level_exact m data k level L H1 H2 H4 H3 H5). Qed.
(** With overflow checks no file at all with an odd number of block columns
    can be unpacked. *)
Theorem C43_odd_columns_fail data level r : bytes data -> 0 <= level -> level_cols (number data 12 2) level mod 2 = 1 ->
  unity_crunch_unpack_level Checked data (zlen data) level <> Ok r.
Proof. exact (unity_odd_never data level r). Qed.
Theorem C43_odd_columns_refuted : ~ C43_statement /\
  unity_crunch_unpack_level Checked eu_file2 (zlen eu_file2) 0 = Panic.
Proof.
  split; [|vm_compute; reflexivity]. intros H. specialize (H Checked eu_file2 eu_contents 0 eu_level2 eu_written2 eu_level_written2).
  exact (C43_odd_columns_fail eu_file2 0 _ (proj1 eu_written2) ltac:(lia) eq_refl H).
Qed.
(** Two faces with one row of blocks each. *)
Theorem C43_faces_refuted m : u_written eu_file3 eu_contents /\ u_level_written eu_file3 eu_contents 0 eu_level3 /\
  level_cols (number eu_file3 12 2) 0 = 2 /\ unity_crunch_unpack_level m eu_file3 (zlen eu_file3) 0 = Panic.
Proof. split; [exact eu_written3|]. split; [exact eu_level_written3|]. split; [reflexivity|]. destruct m; vm_compute; reflexivity. Qed.
(** The four blocks of the first file; the one block of the second file without
    overflow checks. *)
Example C43_ex m : unity_crunch_unpack_level m eu_file1 (zlen eu_file1) 0 = Ok (12,
  [22; 22; 74; 247; 31; 136; 190; 106; 169; 67; 145; 169; 147; 11; 68; 140;
   22; 22; 107; 112; 111; 34; 223; 224; 9; 67; 145; 232; 219; 70; 103; 115;
   19; 7; 96; 244; 71; 214; 207; 232; 160; 72; 144; 183; 203; 92; 14; 247;
   19; 7; 74; 247; 31; 136; 190; 106; 160; 68; 153; 189; 147; 11; 68; 140]).
Proof.
  rewrite (C43_unity_level_partial m eu_file1 eu_contents1 0 eu_level1 eu_written1 eu_level_written1).
  - vm_compute. reflexivity.
  - right. reflexivity.
  - left. reflexivity.
  - vm_compute. congruence.
Qed.
Example C43_ex2 : unity_crunch_unpack_level Wrapping eu_file2 (zlen eu_file2) 0 = Ok (0, [85; 58; 43; 209; 174; 238; 93; 180]).
Proof.
  rewrite (C43_unity_level_partial Wrapping eu_file2 eu_contents 0 eu_level2 eu_written2 eu_level_written2).
  - vm_compute. reflexivity.
  - left. reflexivity.
  - left. reflexivity.
  - vm_compute. congruence.
Qed.
(** No file at all with two or more faces and an odd number of block rows can
    be unpacked, in either build, whatever its contents and its size. *)
Theorem C43_faces_fail m data level r : bytes data -> 0 <= level -> 2 <= number data 17 1 ->
  level_cols (number data 14 2) level mod 2 = 1 -> unity_crunch_unpack_level m data (zlen data) level <> Ok r.
Proof. exact (unity_faces_never m data level r). Qed.
(** Exactly which levels of valid files can be unpacked. *)
Definition u_unpackable (m : build) (data : list Z) (level : Z) : Prop :=
  (m = Wrapping \/ level_cols (number data 12 2) level mod 2 = 0) /\
  (number data 17 1 = 1 \/ level_cols (number data 14 2) level mod 2 = 0) /\
  level_cols (number data 12 2) level * level_cols (number data 14 2) level * u_block_size (number data 18 1) < 2 ^ 32.
Theorem C43_unity_level_code m data k level L : u_written data k -> u_level_written data k level L ->
  (u_unpackable m data level ->
     unity_crunch_unpack_level m data (zlen data) level = Ok (number data 18 1, u_blocks_of_level data k level L)) /\
  (~ u_unpackable m data level -> forall r, unity_crunch_unpack_level m data (zlen data) level <> Ok r).
Proof.
  intros HW HL. split.
  - intros (H1 & H2 & H3). exact (unity_level_exact m data k level L HW HL H2 H1 H3).
  - intros N r E. apply N. pose proof (proj1 HW) as Hb. pose proof (proj1 HL) as Hl. repeat split.
    + destruct m; [|left; reflexivity]. right. destruct (Z.eq_dec (level_cols (number data 12 2) level mod 2) 0) as [|O]; [assumption|].
      exfalso. pose proof (Z.mod_pos_bound (level_cols (number data 12 2) level) 2 ltac:(lia)). exact (unity_odd_never data level r Hb (proj1 Hl) ltac:(lia) E).
    + destruct (Z.eq_dec (level_cols (number data 14 2) level mod 2) 0) as [|O]; [right; assumption|]. left.
      destruct HL as (_ & _ & _ & _ & HF & _). destruct (Z.eq_dec (number data 17 1) 1) as [|O2]; [assumption|].
      exfalso. pose proof (Z.mod_pos_bound (level_cols (number data 14 2) level) 2 ltac:(lia)). exact (unity_faces_never m data level r Hb (proj1 Hl) ltac:(lia) ltac:(lia) E).
    + apply Z.lt_nge. intros G. exact (unity_huge_never m data level r Hb (proj1 Hl) G E).
Qed.
Example C43_code_ex : u_unpackable Checked eu_file1 0 /\ u_unpackable Wrapping eu_file2 0 /\ ~ u_unpackable Checked eu_file2 0 /\ ~ u_unpackable Wrapping eu_file3 0.
Proof.
  unfold u_unpackable. split; [|split; [|split]].
  - split; [right; reflexivity|]. split; [left; reflexivity|vm_compute; reflexivity].
  - split; [left; reflexivity|]. split; [left; reflexivity|vm_compute; reflexivity].
  - intros ([H|H] & _); [discriminate|]. vm_compute in H. discriminate.
  - intros (_ & [H|H] & _); vm_compute in H; discriminate.
Qed.
Print Assumptions C43_unity_level_code.
Example C43_faces_ex : bytes eu_file3 /\ number eu_file3 17 1 = 2 /\ level_cols (number eu_file3 14 2) 0 = 1.
Proof. split; [exact (proj1 eu_written3)|]. split; reflexivity. Qed.
Print Assumptions C43_unity_level_partial.
Print Assumptions C43_faces_fail.
Print Assumptions C43_odd_columns_fail.
Print Assumptions C43_odd_columns_refuted.
Print Assumptions C43_faces_refuted.

(** ** C57 *)
(** The palettes of a written file. *)
Theorem C57_unity_palettes m data k : u_written data k ->
  exists u, unity_unpack_begin m data (zlen data) = Ok u /\
    u_color_endpoints u = u_ce data k /\ u_color_selectors u = u_cs data k /\
    u_alpha_endpoints u = u_ae data k /\ u_alpha_selectors u = u_al data k.
Proof.
  intros H. destruct (unity_init_exact m data k H) as (u & E & _ & _ & _ & E1 & E2 & E3 & E4 & _). exists u. auto.
Qed.
Example C57_ex : u_written eu_file1 eu_contents1 /\
  u_ce eu_file1 eu_contents1 = [33752851; 85068052; 118688001] /\
  u_cs eu_file1 eu_contents1 = [1936148187; 4144913611; 4021648; 2353269651] /\
  u_ae eu_file1 eu_contents1 = [1811; 5654] /\ zlen (u_al eu_file1 eu_contents1) = 13.
Proof. split; [exact eu_written1|]. repeat split; vm_compute; reflexivity. Qed.
Print Assumptions C57_unity_palettes.

(** ** C58 *)
(** A written file, its own size: pixel (x, y) is texel (x mod 4, y mod 4) of
    block (x / 4, y / 4) of the first face, as given by the symbols in the
    file. *)
Definition C58_statement : Prop := forall m data k L image,
  let w := number data 12 2 in let h := number data 14 2 in
  u_written data k -> u_level_written data k 0 L -> zlen data < 2 ^ 32 -> 1 <= w -> 1 <= h ->
  w * h <= zlen image -> 4 * zlen image < 2 ^ 63 ->
  exists raw tex image', unity_texels (number data 18 1) = Some (raw, tex) /\
    decode_unity_crunch m data w h image = Ok (Done, image') /\ zlen image' = zlen image /\
    (forall x y, 0 <= x < w -> 0 <= y < h -> znth image' (y * w + x) =
       tex (u_block_at data k 0 L (u_place (level_cols w 0) (level_cols h 0) 0 (x / 4) (y / 4))) (y mod 4 * 4 + x mod 4)) /\
    (forall j, w * h <= j < zlen image -> znth image' j = znth image j).
(** Missing: as for C43. *)
Theorem C58_unity_file_partial m data k L image :
  let w := number data 12 2 in let h := number data 14 2 in
  u_written data k -> u_level_written data k 0 L -> zlen data < 2 ^ 32 -> 1 <= w -> 1 <= h ->
  w * h <= zlen image -> 4 * zlen image < 2 ^ 63 ->
  m = Wrapping \/ level_cols w 0 mod 2 = 0 ->
  number data 17 1 = 1 \/ level_cols h 0 mod 2 = 0 ->
  level_cols w 0 * level_cols h 0 * u_block_size (number data 18 1) < 2 ^ 32 ->
  exists raw tex image', unity_texels (number data 18 1) = Some (raw, tex) /\
    decode_unity_crunch m data w h image = Ok (Done, image') /\ zlen image' = zlen image /\
    (forall x y, 0 <= x < w -> 0 <= y < h -> znth image' (y * w + x) =
       tex (u_block_at data k 0 L (u_place (level_cols w 0) (level_cols h 0) 0 (x / 4) (y / 4))) (y mod 4 * 4 + x mod 4)) /\
    (forall j, w * h <= j < zlen image -> znth image' j = znth image j).
Proof.
  intros w h HWr HLv Hl Hw Hh Hi Hi2 HM HF HS. pose proof (C43_unity_level_partial m data k 0 L HWr HLv HM HF HS) as U. pose proof (proj1 HWr) as Hb.
  destruct (C42_unity_picture m data _ _ Hb Hl U) as (raw & tex & T & B & LL & A).
  assert (forall n, 1 <= n -> blocks n 4 = level_cols n 0) as BC.
  { intros n Hn. unfold blocks, level_cols, level_size. change (2 ^ 0) with 1. rewrite Z.div_1_r, Z.max_r by lia. f_equal. lia. }
  pose proof HLv as (_ & _ & _ & _ & HFa & HP & _). destruct (u_texels data k L HP) as (tex' & T').
  rewrite T in T'. apply some_pair in T'. destruct T' as [Er Et]. subst tex'. rewrite <- Er in *. unfold u_blocks_of_level in *.
  pose proof (number_range data 12 2 Hb ltac:(lia)) as Nw. pose proof (number_range data 14 2 Hb ltac:(lia)) as Nh. fold w in LL, A, Nw |- *. fold h in LL, A, Nh |- *.
  destruct (level_cols_eq w 0 ltac:(lia) ltac:(lia)) as [_ HW1]. destruct (level_cols_eq h 0 ltac:(lia) ltac:(lia)) as [_ HH1].
  assert (raw = 8 \/ raw = 16) as Hr by (rewrite Er; unfold u_block_size; destruct (_ || _); auto).
  set (W := level_cols w 0) in *. set (H := level_cols h 0) in *. set (faces := number data 17 1) in *.
  assert (0 < H * W) as P1 by nia. assert (1 * (H * W) <= faces * (H * W)) as P2 by (apply Z.mul_le_mono_nonneg_r; lia).
  specialize (LL HS).
  assert (W * H * raw <= zlen (u_visible W H faces (u_block_at data k 0 L))) as P5 by (rewrite LL; nia).
  assert (w * h < 2 ^ 64) as P6 by nia.
  destruct (A w h image ltac:(lia) ltac:(lia) Hi2) as (_ & _ & K); [rewrite !BC by lia; fold W H; lia|exact P6|].
  destruct K as (image' & E & I1 & I2 & I3); [rewrite !BC by lia; exact P5|exact Hi|].
  exists raw, tex, image'. split; [exact T|]. split; [exact E|]. split; [exact I1|]. split; [|exact I3].
  intros x y Hx Hy. rewrite I2 by lia. rewrite BC by lia. fold W. f_equal. unfold u_visible.
  assert (0 <= x / 4 < W) as Qx.
  { split; [apply Z.div_pos; lia|]. unfold W. rewrite <- BC by lia. unfold blocks. apply Z.div_lt_upper_bound; [lia|]. pose proof (Z.div_mod (w + 4 - 1) 4 ltac:(lia)). pose proof (Z.mod_pos_bound (w + 4 - 1) 4 ltac:(lia)). lia. }
  assert (0 <= y / 4 < H) as Qy.
  { split; [apply Z.div_pos; lia|]. unfold H. rewrite <- BC by lia. unfold blocks. apply Z.div_lt_upper_bound; [lia|]. pose proof (Z.div_mod (h + 4 - 1) 4 ltac:(lia)). pose proof (Z.mod_pos_bound (h + 4 - 1) 4 ltac:(lia)). lia. }
  assert ((y / 4 + 1) * W <= H * W) by (apply Z.mul_le_mono_nonneg_r; lia).
  rewrite (block_of_pieces raw (fun q => u_block_at data k 0 L (u_place W H (q / W / H) (q mod W) ((q / W) mod H)))); [| | | |].
  - assert ((y / 4 * W + x / 4) / W = y / 4) as -> by (symmetry; apply Z.div_unique with (x / 4); lia).
    assert ((y / 4 * W + x / 4) mod W = x / 4) as -> by (symmetry; apply Z.mod_unique with (y / 4); lia).
    rewrite (Z.div_small (y / 4) H), (Z.mod_small (y / 4) H) by lia. reflexivity.
  - nia.
  - lia.
  - intros q Hq. rewrite Er. apply (u_zlen_block data k 0 L _ (raw, tex) HP).
  - split; [nia|]. replace (faces * H * W) with (faces * (H * W)) by ring. lia.
Qed.
(** A pixel of the first file: texel 6 of the block in the second row. *)
Example C58_ex m : exists image', decode_unity_crunch m eu_file1 8 8 (repeat 7 65) = Ok (Done, image') /\
  znth image' (5 * 8 + 2) = etc2_rgba8_texel [19; 7; 96; 244; 71; 214; 207; 232; 160; 72; 144; 183; 203; 92; 14; 247] 6 /\ znth image' 64 = 7.
Proof.
  destruct (C58_unity_file_partial m eu_file1 eu_contents1 eu_level1 (repeat 7 65) eu_written1 eu_level_written1) as (raw & tex & image' & T & E & _ & P1 & P2);
    try (vm_compute; congruence); [right; reflexivity|left; reflexivity|].
  change (number eu_file1 12 2) with 8 in *. change (number eu_file1 14 2) with 8 in *. change (number eu_file1 18 1) with 12 in T. apply some_pair in T. destruct T as [<- <-].
  exists image'. split; [exact E|]. split.
  - rewrite (P1 2 5) by lia. reflexivity.
  - rewrite (P2 64) by (vm_compute; split; congruence). reflexivity.
Qed.
(** A file of 4 x 4 texels cannot be decoded with overflow checks. *)
Theorem C58_odd_columns_refuted : ~ C58_statement /\ forall image, decode_unity_crunch Checked eu_file2 4 4 image = Panic.
Proof.
  assert (forall image, decode_unity_crunch Checked eu_file2 4 4 image = Panic) as P.
  { intros image. unfold decode_unity_crunch. change (u32 (zlen eu_file2)) with (zlen eu_file2). rewrite (proj2 C43_odd_columns_refuted). reflexivity. }
  split; [|exact P]. intros H. destruct (H Checked eu_file2 eu_contents eu_level2 (repeat 0 16) eu_written2 eu_level_written2) as (raw & tex & image' & _ & E & _);
    try (vm_compute; congruence). change (number eu_file2 12 2) with 4 in E. change (number eu_file2 14 2) with 4 in E. rewrite P in E. discriminate.
Qed.
(** Which files never decode: several faces with an odd number of block rows, and
    with overflow checks an odd number of block columns. *)
Theorem C58_fail m data w h image image' : bytes data -> zlen data < 2 ^ 32 ->
  (2 <= number data 17 1 /\ level_cols (number data 14 2) 0 mod 2 = 1) \/ (m = Checked /\ level_cols (number data 12 2) 0 mod 2 = 1) ->
  decode_unity_crunch m data w h image <> Ok (Done, image').
Proof.
  intros Hb Hl HF H. unfold decode_unity_crunch in H. replace (u32 (zlen data)) with (zlen data) in H
    by (unfold u32; rewrite Z.mod_small; [reflexivity|pose proof (zlen_nonneg data); lia]).
  destruct (unity_crunch_unpack_level m data (zlen data) 0) as [r|msg|] eqn:E; [|discriminate..].
  destruct HF as [[F1 F2]|[-> F]].
  - exact (unity_faces_never m data 0 r Hb ltac:(lia) F1 F2 E).
  - exact (unity_odd_never data 0 r Hb ltac:(lia) F E).
Qed.
(** Exactly which valid files decode. *)
Theorem C58_unity_file_code m data k L image : let w := number data 12 2 in let h := number data 14 2 in
  u_written data k -> u_level_written data k 0 L -> zlen data < 2 ^ 32 -> 1 <= w -> 1 <= h ->
  w * h <= zlen image -> 4 * zlen image < 2 ^ 63 ->
  ((exists image', decode_unity_crunch m data w h image = Ok (Done, image')) <-> u_unpackable m data 0).
Proof.
  intros w h HW HL Hl Hw Hh Hi Hi2. split.
  - intros [image' E]. destruct (C43_unity_level_code m data k 0 L HW HL) as [_ N].
    unfold decode_unity_crunch in E. replace (u32 (zlen data)) with (zlen data) in E
      by (unfold u32; rewrite Z.mod_small; [reflexivity|pose proof (zlen_nonneg data); lia]).
    destruct (unity_crunch_unpack_level m data (zlen data) 0) as [r|msg|] eqn:U; [|discriminate..].
    assert (forall P : Prop, {P} + {~ P} -> ~ ~ P -> P) as dn by tauto. apply dn; [|intros Q; exact (N Q r eq_refl)].
    unfold u_unpackable. destruct m; [destruct (Z.eq_dec (level_cols (number data 12 2) 0 mod 2) 0); [|right; intuition congruence]|];
    (destruct (Z.eq_dec (number data 17 1) 1); [|destruct (Z.eq_dec (level_cols (number data 14 2) 0 mod 2) 0); [|right; tauto]]);
    (destruct (Z_lt_dec (level_cols (number data 12 2) 0 * level_cols (number data 14 2) 0 * u_block_size (number data 18 1)) (2 ^ 32)); [left; tauto|right; tauto]).
  - intros (H1 & H2 & H3). destruct (C58_unity_file_partial m data k L image HW HL Hl Hw Hh Hi Hi2 H1 H2 H3) as (raw & tex & image' & _ & E & _). exists image'. exact E.
Qed.
Print Assumptions C58_unity_file_code.
Example C58_fail_ex : (2 <= number eu_file3 17 1 /\ level_cols (number eu_file3 14 2) 0 mod 2 = 1) /\ level_cols (number eu_file2 12 2) 0 mod 2 = 1.
Proof. vm_compute. repeat split; congruence. Qed.
Print Assumptions C58_fail.
Print Assumptions C58_unity_file_partial.
Print Assumptions C58_odd_columns_refuted.
