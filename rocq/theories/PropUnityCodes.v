(** * C74: damage behind the codes does not crash the Unity crunch unpackers *)
From Verif Require Import Base BaseLemmas ModelColor ModelBc ModelCrn ModelCrunch ModelUnity SpecImage SpecCrn SpecCrnHeader SpecCrnLevel SpecCrnFile SpecCrnSound SpecCrnTexel SpecCrnSafe SpecCrnCodes
  SpecUnity SpecUnityFile SpecUnitySound SpecUnitySafe SpecUnityCodes
  ProofCrnRead ProofCrnModel ProofCrnExample ProofCrnFile ProofCrnSafeFile ProofUnitySafeFile ProofUnityCodes PropCrunch PropSound PropUnity PropCrnSafe PropUnitySafe PropCrnCodes.

(** A sequence of blocks that the given palettes can draw: as many as all faces of
    the level have. *)
Definition drawn_from (data ce cs ae al : list Z) (level : Z) (out : list Z) : Prop :=
  let n := number data 17 1 * level_cols (number data 14 2) level * level_cols (number data 12 2) level in
  exists block, (forall q, 0 <= q < n -> u_drawable (number data 18 1) ce cs ae al (block q)) /\ out = flat_map block (zrange 0 n).

(** What may become of a level, whatever follows the codes: if a code of the
    palettes is not complete, the file may be refused; otherwise there are palettes
    of the announced sizes, and the level is made of blocks they can draw, or, if
    a code of the levels is not complete, an error. *)
Definition u_survives (data : list Z) (sizes : kind -> list Z) (q : palette_codes) (level : Z) (r : res (Z * list Z)) : Prop :=
  let f := number data 18 1 in
  u_palette_gap data q /\ r = Err "Failed to initialize Crunch decompressor." \/
  exists ce cs ae al, u_palette_sizes data ce cs ae al /\ (has_halves f = true -> Forall five_bits ce) /\
    ((exists out, drawn_from data ce cs ae al level out /\ r = Ok (f, out)) \/
     (exists x, In x (u_kinds f) /\ incomplete (sizes x)) /\ r = Err (u_lost_in f)).

Theorem C74_level m data sizes q level : u_codes_written data sizes q -> u_sturdy m data q -> u_robust data sizes -> u_known data ->
  level_present data level -> u_unpackable m data level ->
  u_survives data sizes q level (unity_crunch_unpack_level m data (zlen data) level).
Proof.
  intros HW HT HR Hd (Hl & HL & [H1 H2] & HF) (HM & HS & HZ).
  destruct (u_codes_safe m data sizes q level HW HT Hl HL H1 H2 HF HS HM HZ Hd HR) as [G|(ce & cs & ae & al & SZ & S5 & S)]; [left; exact G|right].
  exists ce, cs, ae, al. split; [exact SZ|]. split; [exact S5|]. unfold drawn_from. cbv zeta in *.
  destruct (unity_crunch_unpack_level m data (zlen data) level) as [[f dxt]|e|]; cbn [safe fst snd] in S; [left|right|contradiction].
  - destruct S as (-> & block & A & ->). eexists. split; [exists block; split; [exact A|reflexivity]|reflexivity].
  - destruct S as [-> I]. auto.
Qed.

(** With complete codes everything behind the codes makes a picture. *)
Theorem C74_complete m data sizes q level : u_codes_written data sizes q -> u_sturdy m data q -> u_robust data sizes -> u_known data ->
  level_present data level -> u_unpackable m data level -> ~ u_palette_gap data q -> (forall x, In x (u_kinds (number data 18 1)) -> ~ incomplete (sizes x)) ->
  exists ce cs ae al out, u_palette_sizes data ce cs ae al /\ drawn_from data ce cs ae al level out /\
    unity_crunch_unpack_level m data (zlen data) level = Ok (number data 18 1, out).
Proof.
  intros HW HT HR Hd HL HP G C. destruct (C74_level m data sizes q level HW HT HR Hd HL HP) as [[N _]|(ce & cs & ae & al & SZ & _ & [(out & A & E)|[(x & I & N) _]])].
  - contradiction.
  - exists ce, cs, ae, al, out. auto.
  - exfalso. exact (C x I N).
Qed.

(** The image decoder never panics on such a file. *)
Theorem C74_image m data sizes q w h image : u_codes_written data sizes q -> u_sturdy m data q -> u_robust data sizes -> u_known data ->
  level_present data 0 -> u_unpackable m data 0 -> zlen data < 2 ^ 32 ->
  u_palette_gap data q /\ decode_unity_crunch m data w h image = Ok (Failed "Failed to initialize Crunch decompressor.", image) \/
  (exists x, In x (u_kinds (number data 18 1)) /\ incomplete (sizes x)) /\ decode_unity_crunch m data w h image = Ok (Failed (u_lost_in (number data 18 1)), image) \/
  exists ce cs ae al out raw tex, u_palette_sizes data ce cs ae al /\ drawn_from data ce cs ae al 0 out /\ unity_texels (number data 18 1) = Some (raw, tex) /\
    answers raw tex out w h image (decode_unity_crunch m data w h image).
Proof.
  intros HW HT HR Hd HL HP HZ. pose proof (proj1 HW) as Hb.
  destruct (C74_level m data sizes q 0 HW HT HR Hd HL HP) as [[N E]|(ce & cs & ae & al & SZ & _ & [(out & A & E)|[N E]])].
  - left. split; [exact N|]. exact (proj2 (C42_errors m data w h image _ Hb HZ) E).
  - right. right. destruct (C42_unity_picture m data _ _ Hb HZ E) as (raw & tex & T & _ & _ & G). exists ce, cs, ae, al, out, raw, tex. auto.
  - right. left. split; [exact N|]. exact (proj2 (C42_errors m data w h image _ Hb HZ) E).
Qed.

(** ** Example
    The first example file, ETC2 with alpha, with any bytes behind the codes: 7
    bytes of moves for the colours, 8 for the selectors, 2 for the alpha values, 12
    for their selectors, 4 bytes for the level. *)
Definition C74_file (a b c d e : list Z) : list Z :=
  firstn 133 eu_file1 ++ a ++ firstn 9 (skipn 140 eu_file1) ++ b ++ firstn 8 (skipn 157 eu_file1) ++ c ++ firstn 7 (skipn 167 eu_file1) ++ d ++ e.
Definition C74_codes (five : list Z) : palette_codes := mkPaletteCodes five [] (repeat 4 16) (repeat 5 20) (repeat 6 64).

Lemma C74_facts a b c d e : bytes a -> bytes b -> bytes c -> bytes d -> bytes e -> zlen a = 7 -> zlen b = 8 -> zlen c = 2 -> zlen d = 12 -> zlen e = 4 ->
  let data := C74_file a b c d e in
  u_codes_written data eu_sizes (C74_codes (repeat 5 20)) /\ header_at data = header_at eu_file1 /\ levels_of data = 1 /\ zlen data = 190.
Proof.
  intros Ba Bb Bc Bd Be La Lb Lc Ld Le data.
  pose proof (proj1 eu_written1) as B1.
  assert (bytes data) as HB.
  { unfold data, C74_file. apply Forall_app. split; [apply bytes_firstn, B1|]. apply Forall_app. split; [exact Ba|]. apply Forall_app. split; [apply bytes_firstn, bytes_skipn, B1|].
    apply Forall_app. split; [exact Bb|]. apply Forall_app. split; [apply bytes_firstn, bytes_skipn, B1|]. apply Forall_app. split; [exact Bc|].
    apply Forall_app. split; [apply bytes_firstn, bytes_skipn, B1|]. apply Forall_app. split; [exact Bd|exact Be]. }
  destruct (same_length 7 a La) as [fa ->]. destruct (same_length 8 b Lb) as [fb ->]. destruct (same_length 2 c Lc) as [fc ->].
  destruct (same_length 12 d Ld) as [fd ->]. destruct (same_length 4 e Le) as [fe ->]. clear Ba Bb Bc Bd Be La Lb Lc Ld Le.
  assert (header_at data = header_at eu_file1) as EH by (vm_compute; reflexivity).
  split; [|split; [exact EH|split; vm_compute; reflexivity]].
  assert (has_color data) as HC by (unfold has_color; rewrite EH; vm_compute; congruence).
  assert (has_alpha data) as HA by (unfold has_alpha; rewrite EH; vm_compute; congruence).
  split; [exact HB|]. split; [vm_compute; congruence|]. split; [vm_compute; congruence|]. split; [vm_compute; reflexivity|]. split; [left; exact HC|].
  rewrite EH. split; [|split].
  - exists it_refs, it_ends, it_sels, it_sels, it_sels. split; [exact coding_refs|]. split; [intros _; split; [exact coding_ends|exact coding_sels]|].
    split; [intros _; split; exact coding_sels|]. split; [tauto|]. split; [tauto|]. rewrite EH. apply eu_fits_ok. vm_compute. reflexivity.
  - intros _. split.
    + change (is_etc (h_format (header_at eu_file1))) with true. exists it_five. split; [exact coding_five|]. apply starts_ok. vm_compute. reflexivity.
    + exists it_four. split; [exact coding_four|]. apply starts_ok. vm_compute. reflexivity.
  - intros _. split.
    + exists it_five. split; [exact coding_five|]. apply starts_ok. vm_compute. reflexivity.
    + exists it_six64. split; [exact coding_six64|]. apply starts_ok. vm_compute. reflexivity.
Qed.
Lemma C74_hypotheses a b c d e m : bytes a -> bytes b -> bytes c -> bytes d -> bytes e -> zlen a = 7 -> zlen b = 8 -> zlen c = 2 -> zlen d = 12 -> zlen e = 4 ->
  let data := C74_file a b c d e in
  u_codes_written data eu_sizes (C74_codes (repeat 5 20)) /\ u_sturdy m data (C74_codes (repeat 5 20)) /\ u_robust data eu_sizes /\ u_known data /\
  level_present data 0 /\ u_unpackable m data 0 /\ (forall x, In x (u_kinds (number data 18 1)) -> ~ incomplete (eu_sizes x)).
Proof.
  intros Ba Bb Bc Bd Be La Lb Lc Ld Le data. destruct (C74_facts a b c d e Ba Bb Bc Bd Be La Lb Lc Ld Le) as (HW & EH & EL & EZ). fold data in HW, EH, EL, EZ.
  assert (forall (g : header -> Z), g (header_at data) = g (header_at eu_file1)) as EG by (intros g; rewrite EH; reflexivity).
  assert (number data 18 1 = number eu_file1 18 1) as E18 by (exact (EG h_format)). assert (number data 17 1 = number eu_file1 17 1) as E17 by (exact (EG h_faces)).
  assert (number data 12 2 = number eu_file1 12 2) as E12 by (exact (EG h_width)). assert (number data 14 2 = number eu_file1 14 2) as E14 by (exact (EG h_height)).
  assert (number data 39 2 = number eu_file1 39 2) as E39 by (exact (EG (fun h => p_num (h_color_endpoints h)))). assert (number data 47 2 = number eu_file1 47 2) as E47 by (exact (EG (fun h => p_num (h_color_selectors h)))).
  assert (number data 55 2 = number eu_file1 55 2) as E55 by (exact (EG (fun h => p_num (h_alpha_endpoints h)))). assert (number data 63 2 = number eu_file1 63 2) as E63 by (exact (EG (fun h => p_num (h_alpha_selectors h)))).
  assert (level_start data 0 = 186) as E70. { change (hd 0 (h_level_ofs (header_at data)) = 186). rewrite EH. reflexivity. }
  assert (forall l n, nth n l 0 <> 0 -> (n < length l)%nat -> has_word l) as WD.
  { intros l n H1 H2. exists (Z.of_nat n). split; [unfold zlen; lia|]. unfold znth. rewrite Nat2Z.id. exact H1. }
  destruct eu_robust as [R C]. destruct eu_level_present as [P U].
  split; [exact HW|]. split; [|split; [|split; [|split; [|split]]]].
  - unfold u_sturdy. rewrite E18. change (is_etc (number eu_file1 18 1)) with true. cbn [C74_codes q_five q_six q_color q_byte q_alpha].
    split; intros _.
    + split; [apply (WD _ 0%nat); cbn; lia|]. split; [apply (WD _ 0%nat); cbn; lia|]. split; [discriminate|]. intros _. right. intros s [S _]. change (zlen (repeat 5 20)) with 20 in S. lia.
    + split; apply (WD _ 0%nat); cbn; lia.
  - unfold u_robust. rewrite E18, E39, E47, E55, E63. exact R.
  - unfold u_known. rewrite E18. reflexivity.
  - unfold level_present, level_stop. rewrite EL, E70, E17, EZ. change (number eu_file1 17 1) with 1. cbn [Z.ltb Z.add Z.compare Pos.compare Pos.compare_cont]. lia.
  - unfold u_unpackable. rewrite E17, E12, E14, E18. exact (U m).
  - rewrite E18. exact C.
Qed.
Example C74_ex m a b c d e : bytes a -> bytes b -> bytes c -> bytes d -> bytes e -> zlen a = 7 -> zlen b = 8 -> zlen c = 2 -> zlen d = 12 -> zlen e = 4 ->
  let data := C74_file a b c d e in
  unity_crunch_unpack_level m data (zlen data) 0 = Err "Failed to initialize Crunch decompressor." \/
  exists ce cs ae al out, zlen ce = 3 /\ zlen cs = 4 /\ zlen ae = 2 /\ zlen al = 13 /\ drawn_from eu_file1 ce cs ae al 0 out /\
    unity_crunch_unpack_level m data (zlen data) 0 = Ok (12, out).
Proof.
  intros Ba Bb Bc Bd Be La Lb Lc Ld Le data. destruct (C74_hypotheses a b c d e m Ba Bb Bc Bd Be La Lb Lc Ld Le) as (HW & HS & HR & HK & HL & HP & HC).
  destruct (C74_facts a b c d e Ba Bb Bc Bd Be La Lb Lc Ld Le) as (_ & EH & _). fold data in HW, HS, HR, HK, HL, HP, HC, EH.
  assert (forall (g : header -> Z), g (header_at data) = g (header_at eu_file1)) as EG by (intros g; rewrite EH; reflexivity).
  assert (number data 18 1 = 12) as E18 by (exact (EG h_format)). assert (number data 17 1 = number eu_file1 17 1) as E17 by (exact (EG h_faces)).
  assert (number data 12 2 = number eu_file1 12 2) as E12 by (exact (EG h_width)). assert (number data 14 2 = number eu_file1 14 2) as E14 by (exact (EG h_height)).
  assert (number data 39 2 = 3) as E39 by (exact (EG (fun h => p_num (h_color_endpoints h)))). assert (number data 47 2 = 2) as E47 by (exact (EG (fun h => p_num (h_color_selectors h)))).
  assert (number data 55 2 = 2) as E55 by (exact (EG (fun h => p_num (h_alpha_endpoints h)))). assert (number data 63 2 = 2) as E63 by (exact (EG (fun h => p_num (h_alpha_selectors h)))).
  destruct (C74_level m data _ _ 0 HW HS HR HK HL HP) as [[_ E]|(ce & cs & ae & al & SZ & _ & [(out & A & E)|[(x & I & N) _]])].
  - left. exact E.
  - right. exists ce, cs, ae, al, out. destruct SZ as (S1 & S2 & S3 & S4). rewrite E18, E39, E47, E55, E63 in *. unfold drawn_from in A. rewrite E18, E17, E12, E14 in A.
    split; [exact S1|]. split; [exact S2|]. split; [exact S3|]. split; [exact S4|]. split; [exact A|exact E].
  - exfalso. exact (HC x I N).
Qed.
(** Both happen. *)
Example C74_ex2 m : (exists out, unity_crunch_unpack_level m (C74_file (repeat 9 7) (repeat 33 8) [1; 2] (repeat 200 12) (repeat 150 4)) 190 0 = Ok (12, out)) /\
  unity_crunch_unpack_level m (C74_file (repeat 255 7) (repeat 33 8) [1; 2] (repeat 200 12) (repeat 150 4)) 190 0 = Err "Failed to initialize Crunch decompressor.".
Proof.
  assert (forall n v, 0 <= v < 256 -> bytes (repeat v n)) as RB by (intros n v Hv; apply Forall_forall; intros x Hx; apply repeat_spec in Hx; subst; exact Hv).
  split; [|destruct m; vm_compute; reflexivity].
  destruct (C74_ex m (repeat 9 7) (repeat 33 8) [1; 2] (repeat 200 12) (repeat 150 4) ltac:(apply RB; lia) ltac:(apply RB; lia) ltac:(repeat constructor; lia) ltac:(apply RB; lia) ltac:(apply RB; lia)
    eq_refl eq_refl eq_refl eq_refl eq_refl) as [N|(ce & cs & ae & al & out & _ & _ & _ & _ & _ & E)].
  - exfalso. destruct m; vm_compute in N; discriminate.
  - exists out. exact E.
Qed.

(** The bound on the symbols of the end points of ETC formats is needed in a
    checked build: with the symbols 31 and 225 the second colour panics. *)
Definition sz_wide : list Z := repeat 0 31 ++ [1] ++ repeat 0 193 ++ [1].
Definition it_wide := sending sz_wide cl_refs 19 [Sym cl_refs 18; Raw 7 20; Sym cl_refs 1; Sym cl_refs 18; Raw 7 127; Sym cl_refs 18; Raw 7 44; Sym cl_refs 1].
Definition C74_wide : list Z := firstn 125 eu_file1 ++ [3; 138; 96; 128; 0; 0; 0; 0; 0; 25; 71; 253; 96; 60; 0] ++ skipn 140 eu_file1.
Theorem C74_symbols_needed : u_codes_written C74_wide eu_sizes (C74_codes sz_wide) /\ symbols_below 226 sz_wide /\ coded sz_wide 225 /\
  u_robust C74_wide eu_sizes /\ u_known C74_wide /\ level_present C74_wide 0 /\ (forall m, u_unpackable m C74_wide 0) /\
  unity_crunch_unpack_level Checked C74_wide (zlen C74_wide) 0 = Panic /\ u_sturdy Wrapping C74_wide (C74_codes sz_wide) /\
  exists out, unity_crunch_unpack_level Wrapping C74_wide (zlen C74_wide) 0 = Ok (12, out).
Proof.
  assert (header_at C74_wide = header_at eu_file1) as EH by (vm_compute; reflexivity).
  assert (u_codes_written C74_wide eu_sizes (C74_codes sz_wide)) as HW.
  { assert (has_color C74_wide) as HC by (vm_compute; congruence). assert (has_alpha C74_wide) as HA by (vm_compute; congruence).
    split; [apply bytesb_ok; vm_compute; reflexivity|]. split; [vm_compute; congruence|]. split; [vm_compute; congruence|]. split; [vm_compute; reflexivity|]. split; [left; exact HC|].
    split; [|split].
    - exists it_refs, it_ends, it_sels, it_sels, it_sels. split; [exact coding_refs|]. split; [intros _; split; [exact coding_ends|exact coding_sels]|].
      split; [intros _; split; exact coding_sels|]. split; [tauto|]. split; [tauto|]. apply eu_fits_ok. vm_compute. reflexivity.
    - intros _. split.
      + change (is_etc (h_format (header_at C74_wide))) with true. exists it_wide. split.
        * split; [apply code_lengthsb_ok; vm_compute; reflexivity|]. apply sending_ok; [lia|reflexivity|reflexivity|].
          change sz_wide with (repeat 0 31 ++ 1 :: repeat 0 138 ++ repeat 0 55 ++ [1]).
          apply spells_many_zeros, spells_length; [lia|]. apply spells_many_zeros, spells_many_zeros, spells_length; [lia|]. apply spells_end.
        * apply starts_ok. vm_compute. reflexivity.
      + exists it_four. split; [exact coding_four|]. apply starts_ok. vm_compute. reflexivity.
    - intros _. split.
      + exists it_five. split; [exact coding_five|]. apply starts_ok. vm_compute. reflexivity.
      + exists it_six64. split; [exact coding_six64|]. apply starts_ok. vm_compute. reflexivity. }
  assert (forall l n, nth n l 0 <> 0 -> (n < length l)%nat -> has_word l) as WD.
  { intros l n H1 H2. exists (Z.of_nat n). split; [unfold zlen; lia|]. unfold znth. rewrite Nat2Z.id. exact H1. }
  split; [exact HW|]. split; [intros s [S _]; change (zlen sz_wide) with 226 in S; lia|]. split; [split; [vm_compute; split; congruence|vm_compute; congruence]|].
  split; [exact (proj1 eu_robust)|]. split; [reflexivity|]. split; [exact (proj1 eu_level_present)|]. split; [exact (proj2 eu_level_present)|].
  split; [vm_compute; reflexivity|]. split; [|eexists; vm_compute; reflexivity].
  split; intros _; cbn [C74_codes q_five q_six q_color q_byte q_alpha].
  - split; [apply (WD _ 31%nat); vm_compute; [discriminate|lia]|]. split; [apply (WD _ 0%nat); cbn; lia|]. split; [vm_compute; discriminate|]. intros _. left. reflexivity.
  - split; apply (WD _ 0%nat); cbn; lia.
Qed.

Print Assumptions C74_level.
Print Assumptions C74_complete.
Print Assumptions C74_image.
Print Assumptions C74_symbols_needed.
