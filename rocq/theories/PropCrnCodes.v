(** * C73: damage behind the codes does not crash the crunch unpackers *)
From Verif Require Import Base BaseLemmas ModelColor ModelBc ModelCrn ModelCrunch SpecImage SpecCrn SpecCrnHeader SpecCrnLevel SpecCrnFile SpecCrnSound SpecCrnTexel SpecCrnSafe SpecCrnCodes
  ProofCrnRead ProofCrnModel ProofCrnExample ProofCrnFile ProofCrnSafeFile ProofCrnCodes PropCrunch PropSound PropCrnSafe.

(** The formats of crunch files that can be unpacked. *)
Definition known_format (data : list Z) : Prop := number data 18 1 = 0 \/ 2 <= number data 18 1 <= 9.

(** What may become of a level, whatever follows the codes: if a code of the
    palettes is not complete, the file may be refused; otherwise there are palettes
    of the announced sizes, and the level is a picture made of their entries, or, if
    a code of the levels is not complete, an error. *)
Definition survives (data : list Z) (sizes : kind -> list Z) (q : palette_codes) (level : Z) (r : res (Z * list Z)) : Prop :=
  let f := number data 18 1 in
  let W := level_cols (number data 12 2) level in let H := level_cols (number data 14 2) level in let faces := number data 17 1 in
  palette_gap data q /\ r = Err "Failed to initialize Crunch decompressor." \/
  exists ce cs ae al, palette_sizes data ce cs ae al /\
    let planes := planes_of f ce cs ae al in
    ((exists P, all_fit planes P W H faces /\ r = Ok (f, chunk_picture planes P W H faces)) \/
     (exists x, In x (kinds_of planes) /\ incomplete (sizes x)) /\ r = Err (lost_in f)).

Theorem C73_level m data sizes q level : codes_written data sizes q -> sturdy data q -> suited data sizes -> known_format data ->
  level_present data level -> unpackable m data level ->
  survives data sizes q level (crunch_unpack_level m data (zlen data) level).
Proof.
  intros HW HT HU Hf (Hl & HL & [H1 H2] & HF) [HS HZ].
  destruct (codes_safe m data sizes q level HW HT HU Hl HL H1 H2 HF HS HZ Hf) as [G|(ce & cs & ae & al & SZ & S)]; [left; exact G|right].
  exists ce, cs, ae, al. split; [exact SZ|]. cbv zeta in *.
  destruct (crunch_unpack_level m data (zlen data) level) as [[f dxt]|e|]; cbn [safe fst snd] in S; [left|right|contradiction].
  - destruct S as (-> & P & A & ->). exists P. auto.
  - destruct S as [-> I]. auto.
Qed.

(** With complete codes everything behind the codes makes a picture. *)
Theorem C73_complete m data sizes q level : codes_written data sizes q -> sturdy data q -> suited data sizes -> known_format data ->
  level_present data level -> unpackable m data level -> ~ palette_gap data q -> (forall x, ~ incomplete (sizes x)) ->
  exists ce cs ae al P, palette_sizes data ce cs ae al /\
    let planes := planes_of (number data 18 1) ce cs ae al in
    let W := level_cols (number data 12 2) level in let H := level_cols (number data 14 2) level in let faces := number data 17 1 in
    all_fit planes P W H faces /\ crunch_unpack_level m data (zlen data) level = Ok (number data 18 1, chunk_picture planes P W H faces).
Proof.
  intros HW HT HU Hf HL HP G C. destruct (C73_level m data sizes q level HW HT HU Hf HL HP) as [[N _]|(ce & cs & ae & al & SZ & [(P & A & E)|[(x & _ & N) _]])].
  - contradiction.
  - exists ce, cs, ae, al, P. auto.
  - exfalso. exact (C x N).
Qed.

(** The image decoder never panics on such a file. *)
Theorem C73_image m data sizes q w h image : codes_written data sizes q -> sturdy data q -> suited data sizes -> known_format data ->
  level_present data 0 -> unpackable m data 0 -> zlen data < 2 ^ 32 ->
  palette_gap data q /\ decode_crunch m data w h image = Ok (Failed "Failed to initialize Crunch decompressor.", image) \/
  (exists x, incomplete (sizes x)) /\ decode_crunch m data w h image = Ok (Failed (lost_in (number data 18 1)), image) \/
  exists dxt raw tex, crunch_unpack_level m data (zlen data) 0 = Ok (number data 18 1, dxt) /\ crunch_texels (number data 18 1) = Some (raw, tex) /\
    answers raw tex dxt w h image (decode_crunch m data w h image).
Proof.
  intros HW HT HU Hf HL HP HZ. pose proof (proj1 HW) as Hb.
  destruct (C73_level m data sizes q 0 HW HT HU Hf HL HP) as [[N E]|(ce & cs & ae & al & SZ & [(P & A & E)|[(x & _ & N) E]])].
  - left. split; [exact N|]. exact (proj1 (C42_errors m data w h image _ Hb HZ) E).
  - right. right. destruct (C42_crunch_picture m data _ _ Hb HZ E) as (raw & tex & T & _ & _ & G). eexists. exists raw, tex. split; [exact E|]. split; [exact T|apply G].
  - right. left. split; [exists x; exact N|]. exact (proj1 (C42_errors m data w h image _ Hb HZ) E).
Qed.

(** ** Example
    The first example file with any bytes behind the codes: 12 bytes of moves for
    the end points, 12 bytes of moves for the selectors, 5 bytes for the level. *)
Definition C73_file (a b c : list Z) : list Z := firstn 121 ex_file1 ++ a ++ firstn 7 (skipn 133 ex_file1) ++ b ++ c.
Definition C73_codes (sel : list Z) : palette_codes := mkPaletteCodes (repeat 5 20) (repeat 5 20) sel [] [].

Lemma starts_ok data ofs size items : ((0 <=? ofs) && (1 <=? size) && (ofs + size <? zlen data) && forallb item_okb items &&
  prefixb (flat_map item_bits items) (bit_stream (section data ofs size)))%bool = true -> starts_with data ofs size items.
Proof.
  rewrite !andb_true_iff, !Z.leb_le, !Z.ltb_lt. intros ((((? & ?) & ?) & ?) & P). split; [assumption|]. split; [assumption|]. split; [lia|].
  split; [apply items_okb_ok; assumption|]. eexists. split; [apply prefixb_ok, P|right; assumption].
Qed.
Lemma same_length n : forall l : list Z, zlen l = Z.of_nat n -> exists f, l = map f (seq 0 n).
Proof.
  induction n as [|n IH]; intros l Hl.
  - exists (fun _ => 0). destruct l; [reflexivity|]. unfold zlen in Hl. cbn [length] in Hl. lia.
  - destruct l as [|x l]; [unfold zlen in Hl; cbn [length] in Hl; lia|]. destruct (IH l) as [f ->]; [unfold zlen in *; cbn [length] in Hl; lia|].
    exists (fun i => match i with O => x | S j => f j end). cbn [seq map]. rewrite <- seq_shift, map_map. reflexivity.
Qed.

Lemma C73_facts a b c : bytes a -> bytes b -> bytes c -> zlen a = 12 -> zlen b = 12 -> zlen c = 5 ->
  codes_written (C73_file a b c) ex_sizes (C73_codes (repeat 6 49)) /\ header_at (C73_file a b c) = header_at ex_file1 /\ levels_of (C73_file a b c) = 1 /\
  zlen (C73_file a b c) = 157.
Proof.
  intros Ba Bb Bc La Lb Lc.
  assert (bytes (C73_file a b c)) as HB.
  { unfold C73_file. apply Forall_app. split; [apply bytes_firstn, ex_bytes1|]. apply Forall_app. split; [exact Ba|]. apply Forall_app. split; [apply bytes_firstn, bytes_skipn, ex_bytes1|].
    apply Forall_app. split; [exact Bb|exact Bc]. }
  destruct (same_length 12 a La) as [fa ->]. destruct (same_length 12 b Lb) as [fb ->]. destruct (same_length 5 c Lc) as [fc ->]. clear Ba Bb Bc La Lb Lc.
  set (data := C73_file _ _ _) in *.
  assert (header_at data = header_at ex_file1) as EH by (vm_compute; reflexivity).
  split; [|split; [exact EH|split; vm_compute; reflexivity]].
  assert (has_color data) as HC by (unfold has_color; rewrite EH; vm_compute; congruence).
  assert (~ has_alpha data) as HA by (unfold has_alpha; rewrite EH; intros N; apply N; reflexivity).
  split; [exact HB|]. split; [vm_compute; congruence|]. split; [vm_compute; congruence|]. split; [vm_compute; reflexivity|]. split; [left; exact HC|].
  rewrite EH. split; [|split; [|intros N; contradiction]].
  - exists it_chunks, it_ends, it_sels, [], []. split; [exact coding_chunks|]. split; [intros _; split; [exact coding_ends|exact coding_sels]|].
    split; [intros N; contradiction|]. split; [intros N; contradiction|]. split; [auto|]. rewrite EH. apply holds_ok; vm_compute; congruence.
  - intros _. split.
    + exists it_five, it_five. split; [exact coding_five|]. split; [exact coding_five|]. apply starts_ok. vm_compute. reflexivity.
    + exists it_six. split; [exact coding_six|]. apply starts_ok. vm_compute. reflexivity.
Qed.

Lemma C73_hypotheses a b c m : bytes a -> bytes b -> bytes c -> zlen a = 12 -> zlen b = 12 -> zlen c = 5 -> let data := C73_file a b c in
  codes_written data ex_sizes (C73_codes (repeat 6 49)) /\ sturdy data (C73_codes (repeat 6 49)) /\ suited data ex_sizes /\ known_format data /\
  level_present data 0 /\ unpackable m data 0 /\ (forall x, ~ incomplete (ex_sizes x)).
Proof.
  intros Ba Bb Bc La Lb Lc data. destruct (C73_facts a b c Ba Bb Bc La Lb Lc) as (HW & EH & EL & EZ). fold data in HW, EH, EL, EZ.
  assert (forall (g : header -> Z), g (header_at data) = g (header_at ex_file1)) as EG by (intros g; rewrite EH; reflexivity).
  assert (number data 18 1 = 0) as E18 by (exact (EG h_format)). assert (number data 17 1 = 1) as E17 by (exact (EG h_faces)).
  assert (number data 12 2 = 10) as E12 by (exact (EG h_width)). assert (number data 14 2 = 12) as E14 by (exact (EG h_height)).
  assert (number data 39 2 = 3) as E39 by (exact (EG (fun h => p_num (h_color_endpoints h)))). assert (number data 47 2 = 2) as E47 by (exact (EG (fun h => p_num (h_color_selectors h)))).
  assert (level_start data 0 = 152) as E70. { change (hd 0 (h_level_ofs (header_at data)) = 152). rewrite EH. reflexivity. }
  assert (~ has_alpha data) as HA by (unfold has_alpha; rewrite EH; intros N; apply N; reflexivity).
  assert (forall l n, nth n l 0 <> 0 -> (n < length l)%nat -> has_word l) as WD.
  { intros l n H1 H2. exists (Z.of_nat n). split; [unfold zlen; lia|]. unfold znth. rewrite Nat2Z.id. exact H1. }
  split; [exact HW|]. split; [|split; [|split; [left; exact E18|split; [|split]]]].
  - split; [|intros N; contradiction]. intros _. cbn [C73_codes q_five q_six q_color].
    split; [apply (WD _ 0%nat); cbn; lia|]. split; [apply (WD _ 0%nat); cbn; lia|]. split; [apply (WD _ 0%nat); cbn; lia|]. intros s [S _]. change (zlen (repeat 6 49)) with 49 in S. lia.
  - intros ce cs ae al (S1 & S2 & _). rewrite E39 in S1, S2. cbn [Z.eqb] in S2. rewrite E47 in S2. rewrite E18. change (planes_of 0 ce cs ae al) with [color_plane ce cs].
    split; [exists 3; split; [vm_compute; split; congruence|vm_compute; congruence]|].
    intros p [<-|[]]. cbn [color_plane pl_ends pl_sels pl_end pl_sel ex_sizes]. rewrite S1, S2.
    split; (split; [lia|split; [apply (WD _ 0%nat); cbn; lia|intros s [S _]; unfold zlen in S; cbn [length] in S; lia]]).
  - unfold level_present, level_stop. rewrite EL, E70, E17, EZ. cbn [Z.ltb Z.add Z.compare Pos.compare Pos.compare_cont]. lia.
  - unfold unpackable. rewrite E18, E17, E12, E14. split; [left; reflexivity|]. destruct m; vm_compute; reflexivity.
  - intros [] N; vm_compute in N; discriminate.
Qed.
Example C73_ex m a b c : bytes a -> bytes b -> bytes c -> zlen a = 12 -> zlen b = 12 -> zlen c = 5 -> let data := C73_file a b c in
  crunch_unpack_level m data (zlen data) 0 = Err "Failed to initialize Crunch decompressor." \/
  exists ce cs P, zlen ce = 3 /\ zlen cs = 2 /\ all_fit [color_plane ce cs] P 3 3 1 /\
    crunch_unpack_level m data (zlen data) 0 = Ok (0, chunk_picture [color_plane ce cs] P 3 3 1).
Proof.
  intros Ba Bb Bc La Lb Lc data. destruct (C73_hypotheses a b c m Ba Bb Bc La Lb Lc) as (HW & HS & HU & HK & HL & HP & HC). destruct (C73_facts a b c Ba Bb Bc La Lb Lc) as (_ & EH & _).
  fold data in HW, HS, HU, HK, HL, HP, EH.
  assert (forall (g : header -> Z), g (header_at data) = g (header_at ex_file1)) as EG by (intros g; rewrite EH; reflexivity).
  assert (number data 18 1 = 0) as E18 by (exact (EG h_format)). assert (number data 17 1 = 1) as E17 by (exact (EG h_faces)).
  assert (number data 12 2 = 10) as E12 by (exact (EG h_width)). assert (number data 14 2 = 12) as E14 by (exact (EG h_height)).
  assert (number data 39 2 = 3) as E39 by (exact (EG (fun h => p_num (h_color_endpoints h)))). assert (number data 47 2 = 2) as E47 by (exact (EG (fun h => p_num (h_color_selectors h)))).
  destruct (C73_level m data _ _ 0 HW HS HU HK HL HP) as [[_ E]|(ce & cs & ae & al & SZ & [(P & A & E)|[(x & _ & N) _]])].
  - left. exact E.
  - right. exists ce, cs, P. destruct SZ as (S1 & S2 & _). rewrite E39 in S1, S2. cbn [Z.eqb] in S2. rewrite E47 in S2.
    rewrite E18, E17, E12, E14 in A, E. auto.
  - exfalso. exact (HC x N).
Qed.
(** Both happen: the moves 0, 31, 1, 0 ... are refused at the unused code word 31. *)
Example C73_ex2 m : (exists P ce cs, crunch_unpack_level m (C73_file (repeat 9 12) (repeat 33 12) (repeat 200 5)) 157 0 = Ok (0, chunk_picture [color_plane ce cs] P 3 3 1)) /\
  crunch_unpack_level m (C73_file (repeat 255 12) (repeat 33 12) (repeat 200 5)) 157 0 = Err "Failed to initialize Crunch decompressor.".
Proof.
  assert (forall n v, 0 <= v < 256 -> bytes (repeat v n)) as RB by (intros n v Hv; apply Forall_forall; intros x Hx; apply repeat_spec in Hx; subst; exact Hv).
  split; [|destruct m; vm_compute; reflexivity].
  destruct (C73_ex m (repeat 9 12) (repeat 33 12) (repeat 200 5) ltac:(apply RB; lia) ltac:(apply RB; lia) ltac:(apply RB; lia) eq_refl eq_refl eq_refl) as [N|(ce & cs & P & _ & _ & _ & E)].
  - exfalso. destruct m; vm_compute in N; discriminate.
  - exists P, ce, cs. exact E.
Qed.

(** The bound on the symbols of selectors is needed: with one more symbol in the
    code of the selectors, which is sent first, the file panics. *)
Definition it_fifty := sending (repeat 6 50) cl_six 9 [Sym cl_six 6; Sym cl_six 20; Raw 6 42].
Definition C73_wide : list Z := firstn 133 ex_file1 ++ [0; 201; 32; 2; 0; 5; 171; 16; 0; 0; 0; 0; 0; 0; 0; 0; 0; 0; 0] ++ skipn 152 ex_file1.
Theorem C73_symbols_needed m : codes_written C73_wide ex_sizes (C73_codes (repeat 6 50)) /\ symbols_below 50 (repeat 6 50) /\ coded (repeat 6 50) 49 /\
  suited C73_wide ex_sizes /\ level_present C73_wide 0 /\ unpackable m C73_wide 0 /\
  crunch_unpack_level m C73_wide (zlen C73_wide) 0 = Panic.
Proof.
  assert (has_color C73_wide) as HC by (vm_compute; congruence). assert (~ has_alpha C73_wide) as HA by (intros N; apply N; reflexivity).
  split; [|split; [|split; [|split; [|split; [|split]]]]].
  - split; [apply bytesb_ok; vm_compute; reflexivity|]. split; [vm_compute; congruence|]. split; [vm_compute; congruence|]. split; [vm_compute; reflexivity|]. split; [left; exact HC|].
    split; [|split; [|intros N; contradiction]].
    + exists it_chunks, it_ends, it_sels, [], []. split; [exact coding_chunks|]. split; [intros _; split; [exact coding_ends|exact coding_sels]|].
      split; [intros N; contradiction|]. split; [intros N; contradiction|]. split; [auto|]. apply holds_ok; vm_compute; congruence.
    + intros _. split.
      * exists it_five, it_five. split; [exact coding_five|]. split; [exact coding_five|]. apply starts_ok. vm_compute. reflexivity.
      * exists it_fifty. split; [|apply starts_ok; vm_compute; reflexivity]. split; [apply code_lengthsb_ok; reflexivity|]. apply sending_ok; [lia|reflexivity|reflexivity|].
        apply spells_length; [lia|]. apply (spells_many_repeat cl_six 6 42 []); [lia|]. apply spells_end.
  - intros s [S _]. change (zlen (repeat 6 50)) with 50 in S. lia.
  - split; [vm_compute; split; congruence|vm_compute; congruence].
  - intros ce cs ae al (S1 & S2 & _). change (number C73_wide 39 2) with 3 in S1, S2. cbn [Z.eqb] in S2. change (number C73_wide 47 2) with 2 in S2.
    change (number C73_wide 18 1) with 0. change (planes_of 0 ce cs ae al) with [color_plane ce cs].
    split; [exists 3; split; [vm_compute; split; congruence|vm_compute; congruence]|].
    intros p [<-|[]]. cbn [color_plane pl_ends pl_sels pl_end pl_sel ex_sizes]. rewrite S1, S2.
    split; (split; [lia|split; [exists 0; split; [vm_compute; split; congruence|vm_compute; congruence]|intros s [S _]; unfold zlen in S; cbn [length] in S; lia]]).
  - unfold level_present. change (levels_of C73_wide) with 1. change (level_start C73_wide 0) with 152. change (level_stop C73_wide 0) with 157.
    change (zlen C73_wide) with 157. change (number C73_wide 17 1) with 1. lia.
  - split; [left; reflexivity|]. destruct m; vm_compute; reflexivity.
  - destruct m; vm_compute; reflexivity.
Qed.

Print Assumptions C73_level.
Print Assumptions C73_complete.
Print Assumptions C73_image.
Print Assumptions C73_symbols_needed.
