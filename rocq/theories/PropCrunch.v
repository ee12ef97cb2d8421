(** * Whole crunch files (C41, C42, C54-C56). *)
From Verif Require Import ProofCrnFaces ProofCrnEnd.
From Verif Require Import Base BaseLemmas ModelColor ModelBc ModelCrn ModelCrunch SpecImage SpecBc SpecCrn SpecCrnHeader SpecCrnLevel SpecCrnFile
  SpecCrnTexel
  ModelUnity ProofCrnBits ProofCrnRead ProofCrnModel ProofCrnGrid ProofCrnFile ProofCrnWhole ProofCrnExample ProofCrnKeep ProofCrnDecode.

(** ** Two example files
    DXT1, one level, three colour end points, two colour selectors.  The first
    file: 10 x 12 texels, one face; the second: 4 x 4 texels, two faces. *)
Definition ex_head (w h faces size : Z) : list Z :=
  [72; 120; 0; 74; 0; 0; 0; 0; 0; size; 0; 0; 0; w; 0; h; 1; faces; 0; 0; 0; 0; 0; 0; 0; 0; 0; 0; 0; 0; 0; 0; 0;
   0; 0; 106; 0; 0; 27; 0; 3; 0; 0; 133; 0; 0; 19; 0; 2; 0; 0; 152; 0; 0; 0; 0; 0; 0; 0; 152; 0; 0; 0; 0; 0; 0; 32; 0; 0; 74; 0; 0; 0; 152].
Definition ex_body : list Z :=
  [0; 74; 101; 0; 0; 0; 0; 0; 0; 32; 176; 80; 0; 115; 0; 0; 0; 0; 0; 0; 32; 176; 0; 166; 0; 0; 0; 0; 0; 0; 1; 0;
   0; 81; 96; 2; 0; 0; 20; 192; 5; 22; 0; 32; 0; 1; 76; 44; 71; 48; 44; 65; 145; 210; 5; 41; 77; 115; 192;
   0; 197; 32; 2; 0; 5; 164; 54; 31; 192; 1; 237; 82; 131; 6; 133; 182; 1; 8].
Definition ex_file1 : list Z := ex_head 10 12 1 157 ++ ex_body ++ [221; 210; 122; 89; 128].
Definition ex_file2 : list Z := ex_head 4 4 2 154 ++ ex_body ++ [46; 228].

(** Code lengths and their transmission. *)
Definition lengths21 (l : list (Z * Z)) : list Z :=
  map (fun k => fold_right (fun p a => if fst p =? k then snd p else a) 0 l) (zrange 0 21).
Definition cl_chunks := lengths21 [(17, 1); (18, 2); (1, 2)].
Definition sz_chunks : list Z := [0; 0; 0; 1] ++ repeat 0 13 ++ [1].
Definition it_chunks := sending sz_chunks cl_chunks 19 [Sym cl_chunks 17; Raw 3 0; Sym cl_chunks 1; Sym cl_chunks 18; Raw 7 2; Sym cl_chunks 1].
Definition cl_ends := lengths21 [(1, 1); (2, 1)].
Definition it_ends := sending [1; 2; 2] cl_ends 19 [Sym cl_ends 1; Sym cl_ends 2; Sym cl_ends 2].
Definition cl_sels := lengths21 [(1, 1)].
Definition it_sels := sending [1; 1] cl_sels 19 [Sym cl_sels 1; Sym cl_sels 1].
Definition cl_five := lengths21 [(5, 1); (20, 1)].
Definition it_five := sending (repeat 5 20) cl_five 11 [Sym cl_five 5; Sym cl_five 20; Raw 6 12].
Definition cl_six := lengths21 [(6, 1); (20, 1)].
Definition it_six := sending (repeat 6 49) cl_six 9 [Sym cl_six 6; Sym cl_six 20; Raw 6 41].

Definition ex_sizes (x : kind) : list Z := match x with Chunks => sz_chunks | ColorEnd => [1; 2; 2] | _ => [1; 1] end.
Definition ex_contents : contents := mkContents ex_sizes
  (table [[5; 17; 3; 19; 0; 11]; [2; 1; 18; 7; 9; 0]; [10; 10; 10; 13; 14; 15]])
  (table [[3; 24; 31; 48; 0; 7; 45; 20]; [40; 12; 6; 33; 27; 24; 1; 2]])
  (fun _ _ => 0) (fun _ _ => 0).

Lemma coding_chunks : coding sz_chunks it_chunks.
Proof.
  split; [apply code_lengthsb_ok; reflexivity|]. apply sending_ok; [lia|reflexivity|reflexivity|].
  apply spells_zeros, spells_length; [lia|]. apply spells_many_zeros, spells_length; [lia|]. apply spells_end.
Qed.
Lemma coding_ends : coding [1; 2; 2] it_ends.
Proof.
  split; [apply code_lengthsb_ok; reflexivity|]. apply sending_ok; [lia|reflexivity|reflexivity|].
  repeat (apply spells_length; [lia|]). apply spells_end.
Qed.
Lemma coding_sels : coding [1; 1] it_sels.
Proof.
  split; [apply code_lengthsb_ok; reflexivity|]. apply sending_ok; [lia|reflexivity|reflexivity|].
  repeat (apply spells_length; [lia|]). apply spells_end.
Qed.
Lemma coding_five : coding (repeat 5 20) it_five.
Proof.
  split; [apply code_lengthsb_ok; reflexivity|]. apply sending_ok; [lia|reflexivity|reflexivity|].
  apply spells_length; [lia|]. apply (spells_many_repeat cl_five 5 12 []); [lia|]. apply spells_end.
Qed.
Lemma coding_six : coding (repeat 6 49) it_six.
Proof.
  split; [apply code_lengthsb_ok; reflexivity|]. apply sending_ok; [lia|reflexivity|reflexivity|].
  apply spells_length; [lia|]. apply (spells_many_repeat cl_six 6 41 []); [lia|]. apply spells_end.
Qed.


Definition ex_ready (data : list Z) : bool :=
  let fits ofs size items :=
    (0 <=? ofs) && (1 <=? size) && (ofs + size <? zlen data) && forallb item_okb items &&
    prefixb (flat_map item_bits items) (bit_stream (section data ofs size)) in
  let h := header_at data in
  bytesb data && (74 <=? zlen data) && (header_room data <=? zlen data) && well_formed data &&
  (p_num (h_color_endpoints h) =? 3) && (p_num (h_color_selectors h) =? 2) && (p_num (h_alpha_endpoints h) =? 0) &&
  fits (h_tables_ofs h) (h_tables_size h) (it_chunks ++ it_ends ++ it_sels ++ [] ++ []) &&
  fits (p_ofs (h_color_endpoints h)) (p_size (h_color_endpoints h))
    (it_five ++ it_five ++ color_end_items (repeat 5 20) (repeat 5 20) (k_color_ends ex_contents) 3) &&
  fits (p_ofs (h_color_selectors h)) (p_size (h_color_selectors h))
    (it_six ++ selector_items (repeat 6 49) (k_color_sels ex_contents) 2).
Lemma ex_written data : ex_ready data = true -> written data ex_contents.
Proof.
  unfold ex_ready. rewrite !andb_true_iff. rewrite !Z.leb_le, !Z.ltb_lt, !Z.eqb_eq. intros H. decompose [and] H. clear H.
  split; [apply bytesb_ok; assumption|]. split; [assumption|]. split; [assumption|]. split; [assumption|].
  assert (has_color data) as HC by (unfold has_color; lia). assert (~ has_alpha data) as HA by (unfold has_alpha; lia).
  split; [left; exact HC|]. split; [|split; [|tauto]].
  - exists it_chunks, it_ends, it_sels, [], []. split; [exact coding_chunks|]. split; [intros _; split; [exact coding_ends|exact coding_sels]|].
    split; [tauto|]. split; [tauto|]. split; [auto|]. apply holds_ok; assumption.
  - intros _. split.
    + exists (repeat 5 20), (repeat 5 20), it_five, it_five. split; [exact coding_five|]. split; [exact coding_five|].
      match goal with E : p_num (h_color_endpoints _) = 3 |- _ => rewrite E end. apply holds_ok; assumption.
    + exists (repeat 6 49), it_six. split; [exact coding_six|]. split; [intros; apply table_range; [lia|reflexivity]|].
      match goal with E : p_num (h_color_selectors _) = 2 |- _ => rewrite E end. apply holds_ok; assumption.
Qed.
Lemma ex_written1 : written ex_file1 ex_contents.
Proof. apply ex_written. vm_compute. reflexivity. Qed.
Lemma ex_written2 : written ex_file2 ex_contents.
Proof. apply ex_written. vm_compute. reflexivity. Qed.

(** The symbols of the levels. *)
Definition ex_level1 : symbols := mkSymbols (fun g => table [[17; 3]] 0 g)
  (fun _ => table [[1; 2]; [1; 1]; [2]; [0; 1; 2]])
  (fun _ => table [[1; 0; 1; 1]; [0; 1; 0; 0]; [1; 1; 0; 1]; [0; 0; 1; 1]]).
Definition ex_level2 : symbols := mkSymbols (fun g => table [[3]] 0 g)
  (fun _ => table [[0; 1; 2]; [1]])
  (fun _ => table [[1; 0; 1; 1]; [0; 1; 0; 0]]).
Lemma ex_planes data : number data 18 1 = 0 -> p_num (h_color_endpoints (header_at data)) = 3 -> p_num (h_color_selectors (header_at data)) = 2 ->
  file_planes data ex_contents = [color_plane (color_ends (k_color_ends ex_contents) 3) (color_sels (k_color_sels ex_contents) 2)].
Proof. intros E1 E2 E3. unfold file_planes. cbn [header_at h_format]. rewrite E1. cbn [header_at] in E2, E3. rewrite E2, E3. reflexivity. Qed.
Lemma ex_planes1 : file_planes ex_file1 ex_contents = [color_plane (color_ends (k_color_ends ex_contents) 3) (color_sels (k_color_sels ex_contents) 2)].
Proof. apply ex_planes; vm_compute; reflexivity. Qed.
Lemma ex_planes2 : file_planes ex_file2 ex_contents = [color_plane (color_ends (k_color_ends ex_contents) 3) (color_sels (k_color_sels ex_contents) 2)].
Proof. apply ex_planes; vm_compute; reflexivity. Qed.
Lemma ex_sensible1 : sensible (file_planes ex_file1 ex_contents) ex_level1.
Proof.
  rewrite ex_planes1. split; [intros g; apply table_range; [lia|reflexivity]|]. split; intros p n t Hp; change (zlen _) with 1 in Hp; assert (p = 0) as -> by lia.
  - change (0 <= table [[1; 2]; [1; 1]; [2]; [0; 1; 2]] n t < 3). apply table_range; [lia|reflexivity].
  - change (0 <= table [[1; 0; 1; 1]; [0; 1; 0; 0]; [1; 1; 0; 1]; [0; 0; 1; 1]] n t < 2). apply table_range; [lia|reflexivity].
Qed.
Lemma ex_sensible2 : sensible (file_planes ex_file2 ex_contents) ex_level2.
Proof.
  rewrite ex_planes2. split; [intros g; apply table_range; [lia|reflexivity]|]. split; intros p n t Hp; change (zlen _) with 1 in Hp; assert (p = 0) as -> by lia.
  - change (0 <= table [[0; 1; 2]; [1]] n t < 3). apply table_range; [lia|reflexivity].
  - change (0 <= table [[1; 0; 1; 1]; [0; 1; 0; 0]] n t < 2). apply table_range; [lia|reflexivity].
Qed.

(** ** C41 *)
(** A level that is written, read in any build: the blocks in raster order, face
    after face. *)
Definition level_written (data : list Z) (k : contents) (level : Z) (D : symbols) : Prop :=
  let planes := file_planes data k in
  let W := level_cols (number data 12 2) level in let H := level_cols (number data 14 2) level in let faces := number data 17 1 in
  0 <= level < 16 /\ level < levels_of data /\
  level_start data level < level_stop data level /\ level_stop data level <= zlen data /\
  1 <= faces /\ planes <> [] /\ sensible planes D /\
  (forall kv, In kv (level_symbols planes D W H faces) -> coded (k_sizes k (fst kv)) (snd kv)) /\
  exists rest, bit_stream (section data (level_start data level) (level_stop data level - level_start data level)) =
    symbol_bits (k_sizes k) (level_symbols planes D W H faces) ++ rest.
Definition blocks_of_level (data : list Z) (k : contents) (level : Z) (D : symbols) : list Z :=
  level_blocks (file_planes data k) D (level_cols (number data 12 2) level) (level_cols (number data 14 2) level) (number data 17 1).

Definition C41_statement : Prop := forall m data k level D,
  written data k -> level_written data k level D ->
  crunch_unpack_level m data (zlen data) level = Ok (number data 18 1, blocks_of_level data k level D).

(** Missing: several faces with an odd number of block rows (refuted below), and
    levels for which a position reaches 2^31.  Neither unpacks: see
    [C41_level_code]. *)
Theorem C41_level_exact_partial m data k level D :
  written data k -> level_written data k level D ->
  number data 17 1 = 1 \/ level_cols (number data 14 2) level mod 2 = 0 ->
  level_end m (number data 18 1) (level_cols (number data 12 2) level) (level_cols (number data 14 2) level) (number data 17 1) < 2 ^ 31 ->
  crunch_unpack_level m data (zlen data) level = Ok (number data 18 1, blocks_of_level data k level D).
Proof.
  intros HW (H1 & H2 & H3 & H4 & H5 & H6 & H7 & H8 & rest & H9) HF HS. exact (level_exact m data k level D rest HW H1 H2 H3 H4 H5 HF HS H6 H7 H8 H9).
Qed.
Lemma ex_level_written2 : level_written ex_file2 ex_contents 0 ex_level2.
Proof.
  unfold level_written. cbv zeta.
  split; [lia|]. split; [vm_compute; reflexivity|]. split; [vm_compute; reflexivity|]. split; [vm_compute; congruence|]. split; [vm_compute; congruence|].
  split; [rewrite ex_planes2; discriminate|]. split; [exact ex_sensible2|]. split.
  - rewrite ex_planes2. intros kv I. apply codedb_ok. revert kv I. rewrite <- forallb_forall with (f := fun kv => codedb (k_sizes ex_contents (fst kv)) (snd kv)). vm_compute. reflexivity.
  - eexists. apply prefixb_ok. vm_compute. reflexivity.
Qed.
Theorem C41_faces_refuted : ~ C41_statement /\
  forall m, crunch_unpack_level m ex_file2 (zlen ex_file2) 0 = Panic.
Proof.
  assert (forall m, crunch_unpack_level m ex_file2 (zlen ex_file2) 0 = Panic) as D by (intros []; vm_compute; reflexivity).
  split; [|exact D]. intros H. specialize (H Checked ex_file2 ex_contents 0 ex_level2 ex_written2). rewrite D in H.
  specialize (H ex_level_written2). discriminate.
Qed.
Lemma ex_level_written1 : level_written ex_file1 ex_contents 0 ex_level1.
Proof.
  unfold level_written. cbv zeta.
  split; [lia|]. split; [vm_compute; reflexivity|]. split; [vm_compute; reflexivity|]. split; [vm_compute; congruence|]. split; [vm_compute; congruence|].
  split; [rewrite ex_planes1; discriminate|]. split; [exact ex_sensible1|]. split.
  - rewrite ex_planes1. intros kv I. apply codedb_ok. revert kv I. rewrite <- forallb_forall with (f := fun kv => codedb (k_sizes ex_contents (fst kv)) (snd kv)). vm_compute. reflexivity.
  - eexists. apply prefixb_ok. vm_compute. reflexivity.
Qed.

(** The nine blocks of the first file. *)
Example C41_ex : forall m, crunch_unpack_level m ex_file1 (zlen ex_file1) 0 = Ok (0,
  [85; 58; 43; 209; 247; 45; 232; 51; 85; 58; 43; 209; 247; 45; 232; 51;
   85; 58; 43; 209; 247; 45; 232; 51; 35; 42; 11; 152; 8; 88; 234; 84;
   35; 42; 11; 152; 247; 45; 232; 51; 85; 58; 43; 209; 8; 88; 234; 84;
   85; 58; 43; 209; 247; 45; 232; 51; 85; 58; 43; 209; 247; 45; 232; 51;
   85; 58; 43; 209; 247; 45; 232; 51]).
Proof.
  intros m. rewrite (C41_level_exact_partial m ex_file1 ex_contents 0 ex_level1 ex_written1 ex_level_written1).
  - vm_compute. reflexivity.
  - left. vm_compute. reflexivity.
  - destruct m; vm_compute; reflexivity.
Qed.
(** No file at all with two or more faces and an odd number of block rows can
    be unpacked, whatever its contents and its size. *)
Theorem C41_faces_fail m data level r : bytes data -> 0 <= level -> 2 <= number data 17 1 ->
  level_cols (number data 14 2) level mod 2 = 1 -> crunch_unpack_level m data (zlen data) level <> Ok r.
Proof. exact (crunch_faces_never m data level r). Qed.
Example C41_faces_ex : bytes ex_file2 /\ number ex_file2 17 1 = 2 /\ level_cols (number ex_file2 14 2) 0 = 1 /\
  written ex_file2 ex_contents /\ level_written ex_file2 ex_contents 0 ex_level2.
Proof. split; [exact (proj1 ex_written2)|]. split; [reflexivity|]. split; [reflexivity|]. split; [exact ex_written2|exact ex_level_written2]. Qed.
(** No file at all unpacks if a position that is calculated on the way reaches
    2^31: positions are kept in 32 bits, with sign.  How far the positions go
    depends on the build. *)
Theorem C41_end_fail m data level r : bytes data -> 0 <= level -> 1 <= number data 17 1 ->
  2 ^ 31 <= level_end m (number data 18 1) (level_cols (number data 12 2) level) (level_cols (number data 14 2) level) (number data 17 1) ->
  crunch_unpack_level m data (zlen data) level <> Ok r.
Proof. exact (crunch_end_never m data level r). Qed.
(** A file of 65535 x 65535 texels with two faces, contents as before. *)
Definition ex_file3 : list Z := replace_nth 12 255 (replace_nth 14 255 (ex_head 255 255 2 157 ++ ex_body ++ [221; 210; 122; 89; 128])).
Example C41_end_ex : written ex_file3 ex_contents /\ number ex_file3 17 1 = 2 /\ number ex_file3 18 1 = 0 /\
  level_cols (number ex_file3 12 2) 0 = 2 ^ 14 /\ level_cols (number ex_file3 14 2) 0 = 2 ^ 14 /\
  (forall m, 2 ^ 31 <= level_end m 0 (2 ^ 14) (2 ^ 14) 2) /\
  (forall m, level_end m 0 (2 ^ 14) (2 ^ 14) 1 < 2 ^ 31) /\
  level_end Wrapping 9 (2 ^ 14) (2 ^ 14) 1 < 2 ^ 31 <= level_end Checked 9 (2 ^ 14) (2 ^ 14) 1.
Proof.
  split; [apply ex_written; vm_compute; reflexivity|]. split; [reflexivity|]. split; [reflexivity|]. split; [reflexivity|]. split; [reflexivity|].
  split; [intros []; vm_compute; congruence|]. split; [intros []; vm_compute; congruence|]. split; vm_compute; congruence.
Qed.

(** Which written levels unpack, exactly. *)
Definition unpackable (m : build) (data : list Z) (level : Z) : Prop :=
  (number data 17 1 = 1 \/ level_cols (number data 14 2) level mod 2 = 0) /\
  level_end m (number data 18 1) (level_cols (number data 12 2) level) (level_cols (number data 14 2) level) (number data 17 1) < 2 ^ 31.
Theorem C41_level_code m data k level D : written data k -> level_written data k level D ->
  (unpackable m data level -> crunch_unpack_level m data (zlen data) level = Ok (number data 18 1, blocks_of_level data k level D)) /\
  (~ unpackable m data level -> forall r, crunch_unpack_level m data (zlen data) level <> Ok r).
Proof.
  intros HW HL. split.
  - intros [H1 H2]. exact (C41_level_exact_partial m data k level D HW HL H1 H2).
  - intros N r E. apply N. pose proof (proj1 HW) as Hb. pose proof (proj1 HL) as Hl. pose proof HL as (_ & _ & _ & _ & HF & _). split.
    + destruct (Z.eq_dec (level_cols (number data 14 2) level mod 2) 0) as [|O]; [right; assumption|]. left.
      destruct (Z.eq_dec (number data 17 1) 1) as [|O2]; [assumption|].
      exfalso. pose proof (Z.mod_pos_bound (level_cols (number data 14 2) level) 2 ltac:(lia)). exact (crunch_faces_never m data level r Hb (proj1 Hl) ltac:(lia) ltac:(lia) E).
    + apply Z.lt_nge. intros G. exact (crunch_end_never m data level r Hb (proj1 Hl) HF G E).
Qed.
Example C41_code_ex m : unpackable m ex_file1 0 /\ ~ unpackable m ex_file2 0 /\
  written ex_file2 ex_contents /\ level_written ex_file2 ex_contents 0 ex_level2.
Proof.
  unfold unpackable. split; [split; [left; reflexivity|destruct m; vm_compute; reflexivity]|]. split; [|exact (conj ex_written2 ex_level_written2)].
  intros ([H|H] & _); vm_compute in H; discriminate.
Qed.
Print Assumptions C41_level_code.
Print Assumptions C41_end_fail.
Print Assumptions C41_level_exact_partial.
Print Assumptions C41_faces_fail.
Print Assumptions C41_faces_refuted.

(** ** C42 *)
(** What an image decoder for blocks of [raw] bytes must answer. *)
Definition answers (raw : Z) (tex : list Z -> Z -> Z) (dxt : list Z) (w h : Z) (image : list Z) (r : res (status * list Z)) : Prop :=
  0 <= w < 2 ^ 64 -> 0 <= h < 2 ^ 64 -> 4 * zlen image < 2 ^ 63 -> blocks w 4 * blocks h 4 * raw < 2 ^ 64 -> w * h < 2 ^ 64 ->
  (zlen dxt < blocks w 4 * blocks h 4 * raw -> r = Ok (Failed "Not enough data to decode image!", image)) /\
  (blocks w 4 * blocks h 4 * raw <= zlen dxt -> zlen image < w * h -> r = Ok (Failed "Image buffer is too small!", image)) /\
  (blocks w 4 * blocks h 4 * raw <= zlen dxt -> w * h <= zlen image ->
     exists image', r = Ok (Done, image') /\ picture 4 4 raw tex dxt w h image image').

(** Whenever the first level can be unpacked, the format is a supported one,
    the data has the size of all faces, and the answer is the one of the block
    format. *)
Theorem C42_crunch_picture m data f dxt : bytes data -> zlen data < 2 ^ 32 ->
  crunch_unpack_level m data (zlen data) 0 = Ok (f, dxt) ->
  exists raw tex, crunch_texels (number data 18 1) = Some (raw, tex) /\ bytes dxt /\
    (level_cols (number data 12 2) 0 * level_cols (number data 14 2) 0 * raw < 2 ^ 32 ->
     zlen dxt = number data 17 1 * (level_cols (number data 14 2) 0 * level_cols (number data 12 2) 0 * raw)) /\
    forall w h image, answers raw tex dxt w h image (decode_crunch m data w h image).
Proof.
  intros Hb Hl H. destruct (unpack_facts m data 0 f dxt Hb ltac:(lia) H) as (-> & B & raw & tex & T & L).
  destruct (crunch_image m data _ dxt raw tex Hb Hl H T) as (dec & ID & E).
  exists raw, tex. split; [exact T|]. split; [exact B|]. split; [exact L|]. intros w h image H1 H2 H3 H4 H5. rewrite E. exact (ID dxt w h image B H1 H2 H3 H4 H5).
Qed.
Theorem C42_unity_picture m data f dxt : bytes data -> zlen data < 2 ^ 32 ->
  unity_crunch_unpack_level m data (zlen data) 0 = Ok (f, dxt) ->
  exists raw tex, unity_texels (number data 18 1) = Some (raw, tex) /\ bytes dxt /\
    (level_cols (number data 12 2) 0 * level_cols (number data 14 2) 0 * raw < 2 ^ 32 ->
     zlen dxt = number data 17 1 * (level_cols (number data 14 2) 0 * level_cols (number data 12 2) 0 * raw)) /\
    forall w h image, answers raw tex dxt w h image (decode_unity_crunch m data w h image).
Proof.
  intros Hb Hl H. destruct (unity_unpack_facts m data 0 f dxt Hb ltac:(lia) H) as (-> & B & raw & tex & T & L).
  destruct (unity_image m data _ dxt raw tex Hb Hl H T) as (dec & ID & E).
  exists raw, tex. split; [exact T|]. split; [exact B|]. split; [exact L|]. intros w h image H1 H2 H3 H4 H5. rewrite E. exact (ID dxt w h image B H1 H2 H3 H4 H5).
Qed.
(** A file that cannot be unpacked leaves the image alone; a file of an
    unsupported format is never decoded. *)
Theorem C42_errors m data w h image msg : bytes data -> zlen data < 2 ^ 32 ->
  (crunch_unpack_level m data (zlen data) 0 = Err msg -> decode_crunch m data w h image = Ok (Failed msg, image)) /\
  (unity_crunch_unpack_level m data (zlen data) 0 = Err msg -> decode_unity_crunch m data w h image = Ok (Failed msg, image)).
Proof.
  intros Hb Hl. pose proof (zlen_nonneg data). unfold decode_crunch, decode_unity_crunch, u32. rewrite Z.mod_small by lia.
  split; intros ->; reflexivity.
Qed.
Theorem C42_unsupported m data w h image image' : bytes data -> zlen data < 2 ^ 32 ->
  (crunch_texels (number data 18 1) = None -> decode_crunch m data w h image <> Ok (Done, image')) /\
  (unity_texels (number data 18 1) = None -> decode_unity_crunch m data w h image <> Ok (Done, image')).
Proof.
  intros Hb Hl. pose proof (zlen_nonneg data). split; intros T E.
  - destruct (crunch_unpack_level m data (zlen data) 0) as [[f dxt]|msg|] eqn:U.
    + destruct (unpack_facts m data 0 f dxt Hb ltac:(lia) U) as (-> & _ & raw & tex & T' & _). congruence.
    + rewrite (proj1 (C42_errors m data w h image msg Hb Hl) U) in E. discriminate.
    + unfold decode_crunch, u32 in E. rewrite Z.mod_small in E by lia. rewrite U in E. discriminate.
  - destruct (unity_crunch_unpack_level m data (zlen data) 0) as [[f dxt]|msg|] eqn:U.
    + destruct (unity_unpack_facts m data 0 f dxt Hb ltac:(lia) U) as (-> & _ & raw & tex & T' & _). congruence.
    + rewrite (proj2 (C42_errors m data w h image msg Hb Hl) U) in E. discriminate.
    + unfold decode_unity_crunch, u32 in E. rewrite Z.mod_small in E by lia. rewrite U in E. discriminate.
Qed.
(** A texel of the second block column of the first file (10 x 12), and
    rejected sizes: 16 x 12 texels need 12 blocks. *)
Lemma ex_bytes1 : bytes ex_file1.
Proof. exact (proj1 ex_written1). Qed.
Example C42_ex m : (exists image', decode_crunch m ex_file1 10 12 (repeat 7 121) = Ok (Done, image') /\
    znth image' (5 * 10 + 6) = bc1_texel [35; 42; 11; 152; 247; 45; 232; 51] 6 /\ znth image' 120 = 7) /\
  decode_crunch m ex_file1 16 12 (repeat 7 200) = Ok (Failed "Not enough data to decode image!", repeat 7 200).
Proof.
  destruct (C42_crunch_picture m ex_file1 0 _ ex_bytes1 ltac:(vm_compute; reflexivity) (C41_ex m)) as (raw & tex & T & _ & _ & A).
  change (number ex_file1 18 1) with 0 in T. apply some_pair in T. destruct T as [<- <-]. split.
  - destruct (A 10 12 (repeat 7 121) ltac:(lia) ltac:(lia) ltac:(vm_compute; reflexivity) ltac:(vm_compute; reflexivity) ltac:(lia)) as (_ & _ & K).
    destruct K as (image' & E & _ & P1 & P2); [vm_compute; congruence|vm_compute; congruence|]. exists image'. split; [exact E|]. split.
    + rewrite (P1 6 5) by lia. reflexivity.
    + rewrite (P2 120) by (vm_compute; split; congruence). reflexivity.
  - apply (A 16 12 (repeat 7 200)); try (vm_compute; reflexivity); lia.
Qed.
Print Assumptions C42_crunch_picture.
Print Assumptions C42_unity_picture.
Print Assumptions C42_errors.
Print Assumptions C42_unsupported.

(** ** C54 *)
(** A code sent at the start of a section is received, and the symbols
    following it are decoded. *)
Theorem C54_codes_received m sizes items syms buf size rest : coding sizes items -> Forall item_ok items -> Forall (coded sizes) syms ->
  bytes buf -> 1 <= size <= zlen buf ->
  bit_stream (firstn (Z.to_nat size) buf) = flat_map item_bits items ++ flat_map (code sizes) syms ++ rest ->
  7 <= zlen rest \/ size < zlen buf ->
  exists c md c1 c2, start_decoding buf size = Ok c /\ receive_model m c = Ok (md, c1) /\
    prepare_decoder_tables m sizes = Ok md /\ decode_all m md (length syms) c1 = Ok (syms, c2).
Proof.
  intros [HL HS] HI HF Hb Hs E HR.
  destruct (start_alive buf size (flat_map item_bits items ++ flat_map (code sizes) syms ++ rest) [] Hb Hs) as (c & S & A & B & EE & P0);
    [rewrite app_nil_r; exact E|].
  assert (room c rest) as R. { destruct HR as [HR|HR]; [left; exact HR|right; rewrite B, EE; lia]. }
  destruct (receive_model_ok m c sizes items (flat_map (code sizes) syms ++ rest) c HS HL HI (room_app _ _ _ R)) as (md & c1 & RM & PD & B1).
  { split; [exact A|]. split; reflexivity. }
  exists c, md, c1. assert (forall syms c1, Forall (coded sizes) syms -> before c (flat_map (code sizes) syms ++ rest) c1 ->
    exists c2, decode_all m md (length syms) c1 = Ok (syms, c2)) as K.
  { clear - HL PD R. induction syms as [|s l IH]; intros c1 HF B; [exists c1; reflexivity|]. inversion HF as [|? ? Hs HF']; subst.
    cbn [flat_map] in B. rewrite <- app_assoc in B. destruct (take_sym m c sizes md s _ rest c1 HL Hs PD R B) as (c2 & D & B2).
    destruct (IH c2 HF' B2) as (c3 & D3). exists c3. cbn [length decode_all]. rewrite D. cbn [bind]. rewrite D3. reflexivity. }
  destruct (K syms c1 HF B1) as (c2 & D). exists c2. auto.
Qed.
(** The first 32 bytes of the example start with the code for the chunks. *)
Example C54_ex : coding sz_chunks it_chunks /\ forallb item_okb it_chunks = true /\
  bit_stream (firstn 32 ex_body) = flat_map item_bits it_chunks ++ flat_map (code sz_chunks) [3; 3; 3; 3; 3] ++ skipn (length (flat_map item_bits it_chunks) + 5) (bit_stream (firstn 32 ex_body)).
Proof. split; [exact coding_chunks|]. split; vm_compute; reflexivity. Qed.
Print Assumptions C54_codes_received.

(** ** C55 *)
(** The four palettes of a written file. *)
Theorem C55_color_palette m data k : written data k -> has_color data ->
  decode_color_endpoints m data (header_at data) = Ok (color_ends (k_color_ends k) (p_num (h_color_endpoints (header_at data)))) /\
  decode_color_selectors m data (header_at data) = Ok (color_sels (k_color_sels k) (p_num (h_color_selectors (header_at data)))).
Proof.
  intros (Hb & _ & _ & _ & _ & _ & HC & _) HH. destruct (HC HH) as ((s5 & s6 & i5 & i6 & C5 & C6 & P) & (s & i & C & B & Q)). split.
  - exact (color_ends_exact m data k Hb s5 s6 i5 i6 C5 C6 P).
  - exact (color_sels_exact m data k Hb s i C B Q).
Qed.
Theorem C55_alpha_palette m data k : written data k -> has_alpha data ->
  decode_alpha_endpoints m data (header_at data) = Ok (alpha_ends (k_alpha_ends k) (p_num (h_alpha_endpoints (header_at data)))) /\
  decode_alpha_selectors m data (header_at data) = Ok (alpha_sels (k_alpha_sels k) (p_num (h_alpha_selectors (header_at data)))).
Proof.
  intros (Hb & _ & _ & _ & _ & _ & _ & HC) HH. destruct (HC HH) as ((s8 & i8 & C8 & P) & (s & i & C & B & Q)). split.
  - exact (alpha_ends_exact m data k Hb s8 i8 C8 P).
  - exact (alpha_sels_exact m data k Hb s i C B Q).
Qed.
Example C55_ex : written ex_file1 ex_contents /\ has_color ex_file1 /\
  color_ends (k_color_ends ex_contents) 3 = [2550868515; 3509271125; 989498271] /\ color_sels (k_color_sels ex_contents) 2 = [1424644104; 870854135].
Proof. split; [exact ex_written1|]. split; [vm_compute; congruence|]. split; vm_compute; reflexivity. Qed.
Print Assumptions C55_color_palette.
Print Assumptions C55_alpha_palette.

(** ** C56 *)
(** A written file, its own size: pixel (x, y) is texel (x mod 4, y mod 4) of
    block (x / 4, y / 4) of the first face, as given by the symbols in the
    file. *)
Definition C56_statement : Prop := forall m data k D image,
  let w := number data 12 2 in let h := number data 14 2 in
  written data k -> level_written data k 0 D -> zlen data < 2 ^ 32 -> 1 <= w -> 1 <= h ->
  w * h <= zlen image -> 4 * zlen image < 2 ^ 63 ->
  exists raw tex image', crunch_texels (number data 18 1) = Some (raw, tex) /\
    decode_crunch m data w h image = Ok (Done, image') /\ zlen image' = zlen image /\
    (forall x y, 0 <= x < w -> 0 <= y < h -> znth image' (y * w + x) =
       tex (level_block (file_planes data k) D (level_cols w 0) (level_cols h 0) 0 (x / 4) (y / 4)) (y mod 4 * 4 + x mod 4)) /\
    (forall j, w * h <= j < zlen image -> znth image' j = znth image j).
(** Missing: as for C41; see [C56_crunch_file_code]. *)
Theorem C56_crunch_file_partial m data k D image :
  let w := number data 12 2 in let h := number data 14 2 in
  written data k -> level_written data k 0 D -> zlen data < 2 ^ 32 -> 1 <= w -> 1 <= h ->
  w * h <= zlen image -> 4 * zlen image < 2 ^ 63 ->
  number data 17 1 = 1 \/ level_cols h 0 mod 2 = 0 ->
  level_end m (number data 18 1) (level_cols w 0) (level_cols h 0) (number data 17 1) < 2 ^ 31 ->
  exists raw tex image', crunch_texels (number data 18 1) = Some (raw, tex) /\
    decode_crunch m data w h image = Ok (Done, image') /\ zlen image' = zlen image /\
    (forall x y, 0 <= x < w -> 0 <= y < h -> znth image' (y * w + x) =
       tex (level_block (file_planes data k) D (level_cols w 0) (level_cols h 0) 0 (x / 4) (y / 4)) (y mod 4 * 4 + x mod 4)) /\
    (forall j, w * h <= j < zlen image -> znth image' j = znth image j).
Proof.
  intros w h HWr HLv Hl Hw Hh Hi Hi2 HF HS. pose proof (C41_level_exact_partial m data k 0 D HWr HLv HF HS) as U. pose proof (proj1 HWr) as Hb.
  destruct (C42_crunch_picture m data _ _ Hb Hl U) as (raw & tex & T & B & L & A).
  assert (forall n, 1 <= n -> blocks n 4 = level_cols n 0) as BC.
  { intros n Hn. unfold blocks, level_cols, level_size. change (2 ^ 0) with 1. rewrite Z.div_1_r, Z.max_r by lia. f_equal. lia. }
  pose proof HLv as (_ & _ & _ & _ & HFa & HP & _). destruct (planes_texels _ _ _ _ _ HP) as (tex' & T'). cbn [h_format header_at] in T'.
  rewrite T in T'. apply some_pair in T'. destruct T' as [Er Et]. subst tex'. unfold blocks_of_level in *.
  pose proof (number_range data 12 2 Hb ltac:(lia)) as Nw. pose proof (number_range data 14 2 Hb ltac:(lia)) as Nh. fold w in L, A, Nw |- *. fold h in L, A, Nh |- *.
  destruct (level_cols_eq w 0 ltac:(lia) ltac:(lia)) as [_ HW1]. destruct (level_cols_eq h 0 ltac:(lia) ltac:(lia)) as [_ HH1].
  assert (raw = 8 \/ raw = 16) as Hr by (rewrite Er; unfold block_size_of; destruct (_ || _); auto).
  set (W := level_cols w 0) in *. set (H := level_cols h 0) in *. set (faces := number data 17 1) in *.
  assert (0 < H * W) as P1 by nia. assert (1 * (H * W) <= faces * (H * W)) as P2 by (apply Z.mul_le_mono_nonneg_r; lia).
  assert (W * H * raw < 2 ^ 32) as P4.
  { pose proof (level_cols_le w 0 ltac:(lia) ltac:(lia)) as W2. pose proof (level_cols_le h 0 ltac:(lia) ltac:(lia)) as H2. fold W in W2. fold H in H2.
    pose proof (number_range data 17 1 Hb ltac:(lia)) as Nf. fold faces in Nf.
    destruct (level_room m (number data 18 1) W H faces ltac:(lia) ltac:(lia) ltac:(lia) HS) as (_ & _ & _ & _ & _ & _ & R). rewrite <- Er in R. replace (W * H * raw) with (W * raw * H) by ring. lia. }
  specialize (L P4).
  assert (W * H * raw <= zlen (level_blocks (file_planes data k) D W H faces)) as P5 by (rewrite L; nia).
  assert (w * h < 2 ^ 64) as P6 by nia.
  destruct (A w h image ltac:(lia) ltac:(lia) Hi2) as (_ & _ & K); [rewrite !BC by lia; fold W H; lia|exact P6|].
  destruct K as (image' & E & I1 & I2 & I3); [rewrite !BC by lia; exact P5|exact Hi|].
  exists raw, tex, image'. split; [exact T|]. split; [exact E|]. split; [exact I1|]. split; [|exact I3].
  intros x y Hx Hy. rewrite I2 by lia. rewrite BC by lia. fold W. f_equal. unfold level_blocks.
  assert (0 <= x / 4 < W) as Qx.
  { split; [apply Z.div_pos; lia|]. unfold W. rewrite <- BC by lia. unfold blocks. apply Z.div_lt_upper_bound; [lia|]. pose proof (Z.div_mod (w + 4 - 1) 4 ltac:(lia)). pose proof (Z.mod_pos_bound (w + 4 - 1) 4 ltac:(lia)). lia. }
  assert (0 <= y / 4 < H) as Qy.
  { split; [apply Z.div_pos; lia|]. unfold H. rewrite <- BC by lia. unfold blocks. apply Z.div_lt_upper_bound; [lia|]. pose proof (Z.div_mod (h + 4 - 1) 4 ltac:(lia)). pose proof (Z.mod_pos_bound (h + 4 - 1) 4 ltac:(lia)). lia. }
  assert ((y / 4 + 1) * W <= H * W) by (apply Z.mul_le_mono_nonneg_r; lia).
  rewrite (block_of_pieces raw (fun q => level_block (file_planes data k) D W H (q / W / H) (q mod W) ((q / W) mod H))); [| | | |].
  - assert ((y / 4 * W + x / 4) / W = y / 4) as -> by (symmetry; apply Z.div_unique with (x / 4); lia).
    assert ((y / 4 * W + x / 4) mod W = x / 4) as -> by (symmetry; apply Z.mod_unique with (y / 4); lia).
    rewrite (Z.div_small (y / 4) H), (Z.mod_small (y / 4) H) by lia. reflexivity.
  - nia.
  - lia.
  - intros q Hq. eapply zlen_level_block. exact T.
  - split; [nia|]. replace (faces * H * W) with (faces * (H * W)) by ring. lia.
Qed.
Example C56_ex : level_written ex_file1 ex_contents 0 ex_level1 /\
  level_block (file_planes ex_file1 ex_contents) ex_level1 3 3 0 1 1 = [35; 42; 11; 152; 247; 45; 232; 51].
Proof. split; [exact ex_level_written1|]. vm_compute. reflexivity. Qed.
Theorem C56_faces_refuted : ~ C56_statement /\ forall m image, decode_crunch m ex_file2 4 4 image = Panic.
Proof.
  assert (forall m image, decode_crunch m ex_file2 4 4 image = Panic) as P.
  { intros m image. unfold decode_crunch. change (u32 (zlen ex_file2)) with (zlen ex_file2). rewrite (proj2 C41_faces_refuted m). reflexivity. }
  split; [|exact P]. intros H. destruct (H Checked ex_file2 ex_contents ex_level2 (repeat 0 16) ex_written2 ex_level_written2) as (raw & tex & image' & _ & E & _);
    try (vm_compute; congruence). change (number ex_file2 12 2) with 4 in E. change (number ex_file2 14 2) with 4 in E. rewrite P in E. discriminate.
Qed.
(** A file with two or more faces and an odd number of block rows never decodes:
    the answer is an error with the image untouched, or a panic. *)
Theorem C56_faces_fail m data w h image image' : bytes data -> zlen data < 2 ^ 32 -> 2 <= number data 17 1 ->
  level_cols (number data 14 2) 0 mod 2 = 1 -> decode_crunch m data w h image <> Ok (Done, image').
Proof.
  intros Hb Hl HF O H. unfold decode_crunch in H. replace (u32 (zlen data)) with (zlen data) in H
    by (unfold u32; rewrite Z.mod_small; [reflexivity|pose proof (zlen_nonneg data); lia]).
  destruct (crunch_unpack_level m data (zlen data) 0) as [r|msg|] eqn:E; [|discriminate..].
  exact (crunch_faces_never m data 0 r Hb ltac:(lia) HF O E).
Qed.
(** No file at all decodes if a position reaches 2^31. *)
Theorem C56_end_fail m data w h image image' : bytes data -> zlen data < 2 ^ 32 -> 1 <= number data 17 1 ->
  2 ^ 31 <= level_end m (number data 18 1) (level_cols (number data 12 2) 0) (level_cols (number data 14 2) 0) (number data 17 1) ->
  decode_crunch m data w h image <> Ok (Done, image').
Proof.
  intros Hb Hl HF O H. unfold decode_crunch in H. replace (u32 (zlen data)) with (zlen data) in H
    by (unfold u32; rewrite Z.mod_small; [reflexivity|pose proof (zlen_nonneg data); lia]).
  destruct (crunch_unpack_level m data (zlen data) 0) as [r|msg|] eqn:E; [|discriminate..].
  exact (crunch_end_never m data 0 r Hb ltac:(lia) HF O E).
Qed.
Example C56_end_ex : bytes ex_file3 /\ zlen ex_file3 = 157 /\ number ex_file3 17 1 = 2 /\
  forall m, 2 ^ 31 <= level_end m (number ex_file3 18 1) (level_cols (number ex_file3 12 2) 0) (level_cols (number ex_file3 14 2) 0) 2.
Proof. split; [exact (proj1 (proj1 C41_end_ex))|]. split; [reflexivity|]. split; [reflexivity|]. intros []; vm_compute; congruence. Qed.
(** Which written files decode, exactly. *)
Theorem C56_crunch_file_code m data k D image : let w := number data 12 2 in let h := number data 14 2 in
  written data k -> level_written data k 0 D -> zlen data < 2 ^ 32 -> 1 <= w -> 1 <= h ->
  w * h <= zlen image -> 4 * zlen image < 2 ^ 63 ->
  ((exists image', decode_crunch m data w h image = Ok (Done, image')) <-> unpackable m data 0).
Proof.
  intros w h HW HL Hl Hw Hh Hi Hi2. split.
  - intros [image' E]. pose proof (proj1 HW) as Hb. pose proof HL as (_ & _ & _ & _ & HF & _). split.
    + destruct (Z.eq_dec (level_cols (number data 14 2) 0 mod 2) 0) as [|O]; [right; assumption|]. left.
      destruct (Z.eq_dec (number data 17 1) 1) as [|O2]; [assumption|].
      exfalso. pose proof (Z.mod_pos_bound (level_cols (number data 14 2) 0) 2 ltac:(lia)). exact (C56_faces_fail m data w h image image' Hb Hl ltac:(lia) ltac:(lia) E).
    + apply Z.lt_nge. intros G. exact (C56_end_fail m data w h image image' Hb Hl HF G E).
  - intros [U1 U2]. destruct (C56_crunch_file_partial m data k D image HW HL Hl Hw Hh Hi Hi2 U1 U2) as (_ & _ & image' & _ & E & _). exists image'. exact E.
Qed.
Example C56_code_ex m : (exists image', decode_crunch m ex_file1 10 12 (repeat 0 120) = Ok (Done, image')) /\
  ~ (exists image', decode_crunch m ex_file2 4 4 (repeat 0 16) = Ok (Done, image')).
Proof.
  pose proof (C41_code_ex m) as (U1 & U2 & _). split.
  - refine (proj2 (C56_crunch_file_code m ex_file1 ex_contents ex_level1 (repeat 0 120) ex_written1 ex_level_written1 _ _ _ _ _) U1); vm_compute; congruence.
  - intros H. refine (U2 (proj1 (C56_crunch_file_code m ex_file2 ex_contents ex_level2 (repeat 0 16) ex_written2 ex_level_written2 _ _ _ _ _) H)); vm_compute; congruence.
Qed.
Print Assumptions C56_crunch_file_code.
Print Assumptions C56_end_fail.
Print Assumptions C56_crunch_file_partial.
Print Assumptions C56_faces_fail.
Print Assumptions C56_faces_refuted.
