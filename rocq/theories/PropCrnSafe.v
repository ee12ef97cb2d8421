(** * C71: damaged levels do not crash the crunch unpackers *)
From Verif Require Import Base BaseLemmas ModelColor ModelBc ModelCrn ModelCrunch SpecImage SpecCrn SpecCrnHeader SpecCrnLevel SpecCrnFile SpecCrnSound SpecCrnTexel SpecCrnSafe
  ProofCrnRead ProofCrnModel ProofCrnExample ProofCrnFile ProofCrnSafeFile PropCrunch PropSound.

(** A level of a file, whatever its data. *)
Definition level_present (data : list Z) (level : Z) : Prop :=
  0 <= level < 16 /\ level < levels_of data /\ level_start data level < level_stop data level <= zlen data /\ 1 <= number data 17 1.

(** What may become of a level: a picture made of existing palette entries; or
    an error if some code is not complete. *)
Definition unharmed (data : list Z) (k : contents) (level : Z) (r : res (Z * list Z)) : Prop :=
  let planes := file_planes data k in let f := number data 18 1 in
  let W := level_cols (number data 12 2) level in let H := level_cols (number data 14 2) level in let faces := number data 17 1 in
  (exists P, all_fit planes P W H faces /\ r = Ok (f, chunk_picture planes P W H faces)) \/
  (exists x, In x (kinds_of planes) /\ incomplete (k_sizes k x)) /\ r = Err (lost_in f).

(** [written] says nothing about the bytes of the levels. *)
Theorem C71_level m data k level : written data k -> level_present data level -> unpackable m data level ->
  file_planes data k <> [] -> robust (file_planes data k) (k_sizes k) ->
  unharmed data k level (crunch_unpack_level m data (zlen data) level).
Proof.
  intros HW (Hl & HL & [H1 H2] & HF) [HS HZ] Hp HR.
  pose proof (crunch_safe m data k level HW Hl HL H1 H2 HF HS HZ Hp HR) as S. unfold unharmed. cbv zeta in *.
  destruct (crunch_unpack_level m data (zlen data) level) as [[f dxt]|e|]; cbn [safe fst snd] in S; [left|right|contradiction].
  - destruct S as (-> & P & A & ->). exists P. auto.
  - destruct S as [-> I]. auto.
Qed.

(** With complete codes every sequence of bytes is a picture. *)
Theorem C71_complete m data k level : written data k -> level_present data level -> unpackable m data level ->
  file_planes data k <> [] -> robust (file_planes data k) (k_sizes k) ->
  (forall x, In x (kinds_of (file_planes data k)) -> ~ incomplete (k_sizes k x)) ->
  exists P, all_fit (file_planes data k) P (level_cols (number data 12 2) level) (level_cols (number data 14 2) level) (number data 17 1) /\
    crunch_unpack_level m data (zlen data) level =
      Ok (number data 18 1, chunk_picture (file_planes data k) P (level_cols (number data 12 2) level) (level_cols (number data 14 2) level) (number data 17 1)).
Proof.
  intros HW HL HU Hp HR HC. destruct (C71_level m data k level HW HL HU Hp HR) as [S|[(x & I & N) _]]; [exact S|]. exfalso. exact (HC x I N).
Qed.

(** Changing the bytes of the levels in any way. *)
Theorem C71_damaged m data data' k n level : written data k -> level_present data level -> unpackable m data level ->
  file_planes data k <> [] -> robust (file_planes data k) (k_sizes k) ->
  bytes data' -> stored_below n data -> same_below n data data' ->
  unharmed data k level (crunch_unpack_level m data' (zlen data') level).
Proof.
  intros HW HL HU Hp HR Hb' HS HB. destruct (written_same n data data' k HW Hb' HB HS) as (HW' & EH & EL).
  pose proof (proj1 HW) as Hb. assert (0 <= levels_of data) as L0 by (unfold levels_of; pose proof (bytes_znth data 16 Hb); lia).
  pose proof HS as (N & _). unfold header_room in N.
  assert (forall o s, 0 <= o -> o + s <= 70 + 4 * levels_of data -> number data' o s = number data o s) as EN by (intros o s H1 H2; apply (number_same n data data' HB); lia).
  assert (file_planes data' k = file_planes data k) as EP by (unfold file_planes; rewrite EH; reflexivity).
  assert (level_start data' level = level_start data level /\ level_stop data' level = level_stop data level) as [Es Et].
  { destruct HL as (Hl & HL & _). split; [apply EN; lia|]. unfold level_stop. rewrite EL, (proj1 HB). destruct (Z.ltb_spec (level + 1) (levels_of data)); [apply EN; lia|reflexivity]. }
  assert (unharmed data' k level (crunch_unpack_level m data' (zlen data') level)) as G.
  { apply C71_level; [exact HW'| | |rewrite EP; exact Hp|rewrite EP; exact HR].
    - unfold level_present. rewrite EL, Es, Et, (proj1 HB), EN by lia. exact HL.
    - unfold unpackable. rewrite !EN by lia. exact HU. }
  unfold unharmed in G |- *. rewrite !EN, EP in G by lia. exact G.
Qed.

(** The image decoder on such a file never panics: it reports an error and
    leaves the image alone, or draws blocks of the block format. *)
Theorem C71_image m data k w h image : written data k -> level_present data 0 -> unpackable m data 0 ->
  file_planes data k <> [] -> robust (file_planes data k) (k_sizes k) -> zlen data < 2 ^ 32 ->
  (exists x, In x (kinds_of (file_planes data k)) /\ incomplete (k_sizes k x)) /\ decode_crunch m data w h image = Ok (Failed (lost_in (number data 18 1)), image) \/
  exists P raw tex, all_fit (file_planes data k) P (level_cols (number data 12 2) 0) (level_cols (number data 14 2) 0) (number data 17 1) /\
    crunch_texels (number data 18 1) = Some (raw, tex) /\
    answers raw tex (chunk_picture (file_planes data k) P (level_cols (number data 12 2) 0) (level_cols (number data 14 2) 0) (number data 17 1)) w h image (decode_crunch m data w h image).
Proof.
  intros HW HL HU Hp HR HZ. pose proof (proj1 HW) as Hb. destruct (C71_level m data k 0 HW HL HU Hp HR) as [(P & A & E)|[I E]].
  - right. destruct (C42_crunch_picture m data _ _ Hb HZ E) as (raw & tex & T & _ & _ & G). exists P, raw, tex. auto.
  - left. split; [exact I|]. exact (proj1 (C42_errors m data w h image _ Hb HZ) E).
Qed.

(** The hypotheses hold for the first example file, so every five bytes for its
    level give a picture. *)
Lemma ex_robust : robust (file_planes ex_file1 ex_contents) (k_sizes ex_contents) /\
  (forall x, In x (kinds_of (file_planes ex_file1 ex_contents)) -> ~ incomplete (k_sizes ex_contents x)).
Proof.
  rewrite ex_planes1. assert (forall l n, 1 <= n -> zlen l <= n + 1 -> coded l 0 -> moves_in n l) as M.
  { intros l n Hn Hl C. split; [exact Hn|]. split; [exists 0; exact C|]. intros s [S _]. lia. }
  split; [split|].
  - exists 3. split; [vm_compute; split; congruence|vm_compute; congruence].
  - intros p [<-|[]]. split; (apply M; [vm_compute; congruence|vm_compute; congruence|split; [vm_compute; split; congruence|vm_compute; congruence]]).
  - intros x [<-|[<-|[<-|[]]]]; unfold incomplete; vm_compute; congruence.
Qed.
Lemma ex_level_present : level_present ex_file1 0 /\ forall m, unpackable m ex_file1 0.
Proof.
  split; [unfold level_present; change (levels_of ex_file1) with 1; change (level_start ex_file1 0) with 152; change (level_stop ex_file1 0) with 157; change (zlen ex_file1) with 157; change (number ex_file1 17 1) with 1; lia|].
  intros m. split; [left; reflexivity|]. destruct m; vm_compute; reflexivity.
Qed.
Example C71_ex m tail : bytes tail -> zlen tail = 5 ->
  let data := firstn 152 ex_file1 ++ tail in
  exists P, all_fit (file_planes ex_file1 ex_contents) P 3 3 1 /\
    crunch_unpack_level m data (zlen data) 0 = Ok (0, chunk_picture (file_planes ex_file1 ex_contents) P 3 3 1).
Proof.
  intros Hb Hl data. destruct ex_robust as [R C]. destruct ex_level_present as [L U].
  assert (unharmed ex_file1 ex_contents 0 (crunch_unpack_level m data (zlen data) 0)) as [S|[(x & I & N) _]]; [|exact S|exfalso; exact (C x I N)].
  apply (C71_damaged m ex_file1 data ex_contents 152 0 ex_written1 L (U m)); [rewrite ex_planes1; discriminate|exact R| | |].
  - unfold data. apply Forall_app. split; [apply bytes_firstn, ex_bytes1|exact Hb].
  - split; [vm_compute; congruence|]. split; [vm_compute; congruence|]. split; [intros _; split; vm_compute; congruence|]. intros N. exfalso. apply N. reflexivity.
  - split; [unfold data; rewrite zlen_app, Hl; reflexivity|]. intros i Hi. unfold data.
    rewrite znth_app1 by (change (zlen (firstn 152 ex_file1)) with 152; lia). apply znth_firstn. lia.
Qed.

(** The bound on the symbols is needed: with one end point instead of three in
    the palette, the code for end points still having three symbols, the level of the
    example file panics. *)
Definition C71_short : list Z := firstn 40 ex_file1 ++ [1] ++ skipn 41 ex_file1.
Theorem C71_symbols_needed m : written C71_short ex_contents /\ level_present C71_short 0 /\ unpackable m C71_short 0 /\
  file_planes C71_short ex_contents = [color_plane (color_ends (k_color_ends ex_contents) 1) (color_sels (k_color_sels ex_contents) 2)] /\
  (exists s, coded (k_sizes ex_contents ColorEnd) s /\ s = 1 + 1) /\
  crunch_unpack_level m C71_short (zlen C71_short) 0 = Panic.
Proof.
  split; [|split; [|split; [|split; [|split]]]].
  - assert (forall ofs size items, ((0 <=? ofs) && (1 <=? size) && (ofs + size <? zlen C71_short) && forallb item_okb items &&
      prefixb (flat_map item_bits items) (bit_stream (section C71_short ofs size)))%bool = true -> holds C71_short ofs size items) as K.
    { intros ofs size items. rewrite !andb_true_iff, !Z.leb_le, !Z.ltb_lt. intros ((((? & ?) & ?) & ?) & ?). apply holds_ok; assumption. }
    split; [apply bytesb_ok; vm_compute; reflexivity|]. split; [vm_compute; congruence|]. split; [vm_compute; congruence|]. split; [vm_compute; reflexivity|].
    assert (has_color C71_short) as HC by (vm_compute; congruence). assert (~ has_alpha C71_short) as HA by (intros N; apply N; reflexivity).
    split; [left; exact HC|]. split; [|split; [|tauto]].
    + exists it_chunks, it_ends, it_sels, [], []. split; [exact coding_chunks|]. split; [intros _; split; [exact coding_ends|exact coding_sels]|].
      split; [tauto|]. split; [tauto|]. split; [auto|]. apply K. vm_compute. reflexivity.
    + intros _. split.
      * exists (repeat 5 20), (repeat 5 20), it_five, it_five. split; [exact coding_five|]. split; [exact coding_five|]. apply K. vm_compute. reflexivity.
      * exists (repeat 6 49), it_six. split; [exact coding_six|]. split; [intros; apply table_range; [lia|reflexivity]|]. apply K. vm_compute. reflexivity.
  - unfold level_present. change (levels_of C71_short) with 1. change (level_start C71_short 0) with 152. change (level_stop C71_short 0) with 157.
    change (zlen C71_short) with 157. change (number C71_short 17 1) with 1. lia.
  - split; [left; reflexivity|]. destruct m; vm_compute; reflexivity.
  - unfold file_planes. change (h_format (header_at C71_short)) with 0. change (p_num (h_color_endpoints (header_at C71_short))) with 1.
    change (p_num (h_color_selectors (header_at C71_short))) with 2. reflexivity.
  - exists 2. split; [split; [vm_compute; split; congruence|vm_compute; congruence]|reflexivity].
  - destruct m; vm_compute; reflexivity.
Qed.

Print Assumptions C71_level.
Print Assumptions C71_complete.
Print Assumptions C71_damaged.
Print Assumptions C71_image.
Print Assumptions C71_symbols_needed.
