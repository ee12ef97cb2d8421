(** * C37-C40, C44: crunch header, entropy coding, palette indices *)
From Verif Require Import Base BaseLemmas ModelColor ModelCrn ModelCrunch ModelUnity
  SpecCrn SpecCrnHeader ProofCrnBits ProofCrnRead ProofCrnHeader ProofCrnIndex.

(** ** C37 *)
(** A file is accepted exactly if it has room for its header, the signature
    and consistent sizes (and, for the texture info, one of the sixteen
    formats); the fields are the big-endian numbers at their offsets. *)
Definition C37_statement : Prop := forall data, bytes data ->
  crnd_get_header data (zlen data) =
    (if (Z.max 74 (header_room data) <=? zlen data) && well_formed data then Ok (header_at data) else Err "") /\
  crnd_get_texture_info data (zlen data) =
    (if (Z.max 74 (header_room data) <=? zlen data) && (well_formed data && (znth data 18 <=? 15))
     then Ok (info_at data) else Err "").
(** Missing: files of at least 74 bytes that end inside their own table of
    level offsets (see C37_header_refuted). *)
Theorem C37_header_exact_partial data : bytes data -> zlen data < 74 \/ header_room data <= zlen data ->
  crnd_get_header data (zlen data) =
    (if (Z.max 74 (header_room data) <=? zlen data) && well_formed data then Ok (header_at data) else Err "") /\
  crnd_get_texture_info data (zlen data) =
    (if (Z.max 74 (header_room data) <=? zlen data) && (well_formed data && (znth data 18 <=? 15))
     then Ok (info_at data) else Err "").
Proof.
  intros Hb H. rewrite header_code, info_code by auto.
  destruct (Z.ltb_spec (zlen data) 74), (Z.ltb_spec (zlen data) (header_room data)),
    (Z.leb_spec (Z.max 74 (header_room data)) (zlen data)); try lia; cbn [andb]; auto.
Qed.
(** What the code does on every file. *)
Theorem C37_header_code data : bytes data ->
  crnd_get_header data (zlen data) =
    (if zlen data <? 74 then Err "" else if zlen data <? header_room data then Panic
     else if well_formed data then Ok (header_at data) else Err "") /\
  crnd_get_texture_info data (zlen data) =
    (if zlen data <? 74 then Err "" else if zlen data <? header_room data then Panic
     else if well_formed data && (znth data 18 <=? 15) then Ok (info_at data) else Err "").
Proof. intros Hb. split; [exact (header_code data Hb)|exact (info_code data Hb)]. Qed.
(** 74 bytes claiming two levels: the second offset lies beyond the end. *)
Definition short_file : list Z := repeat 0 16 ++ [2] ++ repeat 0 57.
Lemma short_file_bytes : bytes short_file.
Proof. unfold short_file. repeat (constructor; [unfold is_byte; lia|]). constructor. Qed.
Theorem C37_header_refuted : ~ C37_statement /\
  crnd_get_header short_file (zlen short_file) = Panic /\ crnd_get_texture_info short_file (zlen short_file) = Panic.
Proof.
  split; [|split; vm_compute; reflexivity]. intros H. destruct (H short_file short_file_bytes) as [E _].
  vm_compute in E. discriminate.
Qed.
(** A file of one 8x4 level, format 2 (DXT5), one face. *)
Definition sample_file : list Z :=
  [72; 120; 0; 74; 1; 2; 0; 0; 0; 74; 3; 4; 0; 8; 0; 4; 1; 1; 2] ++ repeat 0 51 ++ [0; 0; 1; 5].
Example C37_ex : header_room sample_file = 74 /\ zlen sample_file = 74 /\
  crnd_get_texture_info sample_file 74 = Ok (mkInfo 8 4 1 1 16 0 0 2) /\
  (exists h, crnd_get_header sample_file 74 = Ok h /\ h_level_ofs h = [261] /\ h_width h = 8).
Proof. repeat split; try (vm_compute; reflexivity). eexists. split; [vm_compute; reflexivity|]. auto. Qed.
Print Assumptions C37_header_exact_partial.
Print Assumptions C37_header_code.
Print Assumptions C37_header_refuted.

(** ** C38 *)
Definition C38_statement : Prop := forall m data w h image, bytes data -> zlen data < 2 ^ 32 -> bytes image ->
  decode_crunch m data w h image <> Panic /\ decode_unity_crunch m data w h image <> Panic.
(** Files rejected by their header: too short, or with a complete header that
    lacks the signature, has inconsistent sizes, or an unknown format.
    Missing: files with an acceptable header and corrupt contents, and files
    ending inside their header (where the code panics). *)
Theorem C38_bad_header_partial m data w h image : bytes data -> zlen data < 2 ^ 32 ->
  zlen data < 74 \/ header_room data <= zlen data /\ (well_formed data = false \/ 15 < znth data 18) ->
  decode_crunch m data w h image = Ok (Failed "Invalid crunch texture encoding.", image) /\
  decode_unity_crunch m data w h image = Ok (Failed "Invalid crunch texture encoding.", image).
Proof. exact (crunch_rejected m data w h image). Qed.
(** Every file ending inside its header panics, whatever else it contains. *)
Theorem C38_short_header_code m data w h image : bytes data -> zlen data < 2 ^ 32 ->
  74 <= zlen data < header_room data ->
  decode_crunch m data w h image = Panic /\ decode_unity_crunch m data w h image = Panic.
Proof. exact (crunch_short_header m data w h image). Qed.
(** The 74-byte file of C37. *)
Theorem C38_panic_refuted : ~ C38_statement /\
  (forall m, decode_crunch m short_file 4 4 [] = Panic /\ decode_unity_crunch m short_file 4 4 [] = Panic).
Proof.
  assert (forall m, decode_crunch m short_file 4 4 [] = Panic /\ decode_unity_crunch m short_file 4 4 [] = Panic) as D.
  { intros m. apply crunch_short_header; [exact short_file_bytes|vm_compute; reflexivity|vm_compute; split; congruence]. }
  split; [|exact D]. intros H. destruct (H Checked short_file 4 4 [] short_file_bytes) as [K _];
    [vm_compute; reflexivity|constructor|]. apply K, D.
Qed.
(** An acceptable header whose table offset lies beyond the end of the file. *)
Definition wild_file : list Z :=
  [72; 120; 0; 74; 1; 2; 0; 0; 0; 74; 3; 4; 0; 8; 0; 4; 1; 1; 2] ++ repeat 0 48 ++ [1; 0; 0; 0; 0; 1; 5].
Theorem C38_wild_offset_refuted : well_formed wild_file = true /\ header_room wild_file <= zlen wild_file /\
  forall m, decode_crunch m wild_file 4 4 [] = Panic /\ decode_unity_crunch m wild_file 4 4 [] = Panic.
Proof.
  split; [vm_compute; reflexivity|split; [vm_compute; congruence|]]. intros []; split; vm_compute; reflexivity.
Qed.
Example C38_ex : header_room (repeat 1 80) <= zlen (repeat 1 80) /\ well_formed (repeat 1 80) = false /\
  decode_crunch Checked (repeat 1 80) 4 4 [9] = Ok (Failed "Invalid crunch texture encoding.", [9]).
Proof. repeat split; vm_compute; congruence. Qed.
Print Assumptions C38_bad_header_partial.
Print Assumptions C38_short_header_code.
Print Assumptions C38_panic_refuted.
Print Assumptions C38_wild_offset_refuted.

(** ** C39 *)
(** The tables built for any code lengths decode every sequence of canonical
    codes, whatever follows it in the buffer. *)
Theorem C39_huffman_inverse m sizes syms buf size rest : code_lengths sizes -> Forall (coded sizes) syms ->
  bytes buf -> 1 <= size <= zlen buf ->
  bit_stream (firstn (Z.to_nat size) buf) = flat_map (code sizes) syms ++ rest ->
  exists md c c', prepare_decoder_tables m sizes = Ok md /\ start_decoding buf size = Ok c /\
    decode_all m md (length syms) c = Ok (syms, c').
Proof.
  intros HL HF Hb Hs E. destruct (prepare_some m sizes HL) as (md & P).
  destruct (start_alive buf size (flat_map (code sizes) syms ++ rest) [] Hb Hs) as (c & S & A & B & _ & P0);
    [rewrite app_nil_r; exact E|].
  destruct (decode_all_ok m sizes md rest HL P syms c HF A) as (c' & D & _); [rewrite B, P0; lia|].
  exists md, c, c'. auto.
Qed.
(** The same from any state of the bit buffer. *)
Theorem C39_symbol_any_state m sizes md s c bs : code_lengths sizes -> coded sizes s ->
  prepare_decoder_tables m sizes = Ok md -> carries c (code sizes s ++ bs) -> c_pos c < zlen (c_buf c) ->
  exists c', decode m md c = Ok (s, c') /\ carries c' bs.
Proof.
  intros HL Hc HP H P. destruct (decode_ok m sizes md c s bs HL Hc HP H P) as (c' & D & K & _). eauto.
Qed.
(** The canonical codes are prefix free, of the given lengths. *)
Theorem C39_prefix_free sizes s t a b : code_lengths sizes -> coded sizes s -> coded sizes t ->
  code sizes s ++ a = code sizes t ++ b -> s = t.
Proof. exact (prefix_free sizes s t a b). Qed.
Theorem C39_code_length sizes s : code_lengths sizes -> coded sizes s -> zlen (code sizes s) = znth sizes s.
Proof. intros HL Hc. apply (code_facts sizes s HL Hc). Qed.
(** Twenty symbols (so that the lookup table is used), lengths up to 16. *)
Definition ex_sizes : list Z := [2; 0; 3; 2; 5; 5; 16; 16; 9; 8; 7; 8; 6; 6; 13; 12; 13; 14; 15; 15].
Definition ex_stream : list Z := [188; 168; 47; 41; 198; 241].
Lemma ex_sizes_ok : code_lengths ex_sizes.
Proof. split; [vm_compute; split; congruence|split; [repeat (constructor; [lia|]); constructor|vm_compute; congruence]]. Qed.
Example C39_ex : code_lengths ex_sizes /\ Forall (coded ex_sizes) [6; 0; 19; 2; 3; 8] /\
  bit_stream ex_stream = flat_map (code ex_sizes) [6; 0; 19; 2; 3; 8] ++ [true] /\
  (let* md := prepare_decoder_tables Checked ex_sizes in
   let* c := start_decoding ex_stream 6 in
   let* (l, _) := decode_all Checked md 6 c in Ok l) = Ok [6; 0; 19; 2; 3; 8].
Proof.
  split; [exact ex_sizes_ok|split; [|split; vm_compute; reflexivity]].
  repeat (constructor; [split; [vm_compute; split; congruence|vm_compute; congruence]|]). constructor.
Qed.
Print Assumptions C39_huffman_inverse.
Print Assumptions C39_symbol_any_state.
Print Assumptions C39_prefix_free.
Print Assumptions C39_code_length.

(** ** C40 *)
(** Reading any sequence of symbols and raw bit fields of up to 16 bits off a
    buffer that starts with their bits delivers them. *)
Definition C40_statement : Prop := forall m items buf size rest, Forall item_ok items ->
  bytes buf -> 1 <= size <= zlen buf ->
  bit_stream (firstn (Z.to_nat size) buf) = flat_map item_bits items ++ rest ->
  exists c c', start_decoding buf size = Ok c /\ read_items m items c = Ok (map item_value items, c').
(** It holds when at least 7 bits or one byte of the slice follow. *)
Theorem C40_reads_partial m items buf size rest : Forall item_ok items ->
  bytes buf -> 1 <= size <= zlen buf ->
  bit_stream (firstn (Z.to_nat size) buf) = flat_map item_bits items ++ rest ->
  7 <= zlen rest \/ size < zlen buf ->
  exists c c', start_decoding buf size = Ok c /\ read_items m items c = Ok (map item_value items, c').
Proof.
  intros HF Hb Hs E R.
  destruct (start_alive buf size (flat_map item_bits items ++ rest) [] Hb Hs) as (c & S & A & B & En & P0);
    [rewrite app_nil_r; exact E|].
  destruct (read_items_ok m rest items c HF A) as (c' & D & _).
  - rewrite B, En. destruct R; [left; lia|right; left; lia].
  - exists c, c'. auto.
Qed.
(** And always for raw reads alone, of up to 32 bits, from any state. *)
Theorem C40_raw_any_state m n v c bs : 0 <= n <= 32 -> 0 <= v < 2 ^ n -> carries c (bits_of n v ++ bs) ->
  exists c', decode_bits m n c = Ok (v, c') /\ carries c' bs.
Proof. intros Hn Hv H. destruct (decode_bits_ok m n c bs v Hn Hv H) as (c' & D & K & _). eauto. Qed.
(** A raw bit and then a symbol from a slice of one byte: the second read
    looks beyond the slice although 7 bits are left in the bit buffer. *)
Theorem C40_end_of_slice_refuted : ~ C40_statement /\
  forall m, (let* c := start_decoding [0] 1 in read_items m [Raw 1 0; Sym [1; 1] 0] c) = Panic.
Proof.
  assert (forall m, (let* c := start_decoding [0] 1 in read_items m [Raw 1 0; Sym [1; 1] 0] c) = Panic) as D
    by (intros []; vm_compute; reflexivity).
  split; [|exact D]. intros H.
  destruct (H Checked [Raw 1 0; Sym [1; 1] 0] [0] 1 (repeat false 6)) as (c & c' & S & R).
  - constructor; [cbn; lia|constructor; [|constructor]]. split.
    + split; [vm_compute; split; congruence|split; [repeat (constructor; [lia|]); constructor|vm_compute; congruence]].
    + split; [vm_compute; split; congruence|vm_compute; congruence].
  - repeat constructor; unfold is_byte; lia.
  - vm_compute. split; congruence.
  - vm_compute. reflexivity.
  - specialize (D Checked). rewrite S in D. cbn [bind] in D. congruence.
Qed.
Example C40_ex : bit_stream ex_stream = flat_map item_bits [Raw 3 5; Raw 16 58689; Raw 11 970; Raw 0 0; Sym [1; 1] 0; Raw 5 28] ++ skipn 36 (bit_stream ex_stream) /\
  (let* c := start_decoding ex_stream 6 in
   let* (l, _) := read_items Checked [Raw 3 5; Raw 16 58689; Raw 11 970; Raw 0 0; Sym [1; 1] 0; Raw 5 28] c in Ok l) =
  Ok [5; 58689; 970; 0; 0; 28].
Proof. split; vm_compute; reflexivity. Qed.
Print Assumptions C40_reads_partial.
Print Assumptions C40_raw_any_state.
Print Assumptions C40_end_of_slice_refuted.

(** ** C44 *)
(** One update of a running palette index, in crunch (`limit`) and in Unity
    crunch (conditional subtraction). *)
Theorem C44_limit m prev delta n : 0 < n <= 2 ^ 30 -> 0 <= prev < n -> 0 <= delta < n ->
  limit m (prev + delta) n = Ok ((prev + delta) mod n) /\ 0 <= (prev + delta) mod n < n.
Proof.
  intros Hn Hp Hd. split; [apply limit_ok; lia|apply Z.mod_pos_bound; lia].
Qed.
(** Any number of updates: the indices are the sums of the deltas modulo the
    palette size, all of them valid. *)
Theorem C44_crunch_indices m msg dm n prev cd ds : 0 < n <= 2 ^ 30 -> 0 <= prev < n ->
  Forall (fun d => 0 <= d < n) ds -> delivers m dm cd ds ->
  indices (next_index m msg dm n) (length ds) prev cd = Ok (sums n prev ds) /\
  Forall (fun i => 0 <= i < n) (sums n prev ds).
Proof.
  intros Hn. apply (indices_ok m dm n (next_index m msg dm n)); [lia|].
  intros. eapply next_index_ok; eauto.
Qed.
Theorem C44_unity_indices m msg dm n prev cd ds : 0 < n <= 2 ^ 30 -> 0 <= prev < n ->
  Forall (fun d => 0 <= d < n) ds -> delivers m dm cd ds ->
  indices (unity_advance m msg dm n) (length ds) prev cd = Ok (sums n prev ds) /\
  Forall (fun i => 0 <= i < n) (sums n prev ds).
Proof.
  intros Hn. apply (indices_ok m dm n (unity_advance m msg dm n)); [lia|].
  intros. eapply unity_advance_ok; eauto.
Qed.
Definition ex_codec : codec := mkCodec ex_stream 0 5 0 0.
Example C44_ex : exists dm, prepare_decoder_tables Checked ex_sizes = Ok dm /\
  delivers Checked dm ex_codec [6; 0; 19; 2; 3; 8] /\
  indices (next_index Checked "" dm 20) 6 17 ex_codec = Ok [3; 3; 2; 4; 7; 15] /\
  sums 20 17 [6; 0; 19; 2; 3; 8] = [3; 3; 2; 4; 7; 15].
Proof.
  eexists. split; [vm_compute; reflexivity|]. split; [|split; vm_compute; reflexivity].
  repeat (eexists; split; [vm_compute; reflexivity|]). exact I.
Qed.
Print Assumptions C44_limit.
Print Assumptions C44_crunch_indices.
Print Assumptions C44_unity_indices.
