(** * C72: damaged levels do not crash the Unity crunch unpackers *)
From Verif Require Import Base BaseLemmas ModelColor ModelBc ModelCrn ModelCrunch ModelUnity SpecImage SpecCrn SpecCrnHeader SpecCrnLevel SpecCrnFile SpecCrnSound SpecCrnTexel SpecCrnSafe
  SpecUnity SpecUnityFile SpecUnitySound SpecUnitySafe
  ProofCrnRead ProofCrnModel ProofCrnExample ProofCrnFile ProofCrnSafeFile ProofUnitySafeFile PropCrunch PropSound PropUnity PropCrnSafe.

(** A sequence of blocks that the palettes of the file can draw: as many as all
    faces of the level have. *)
Definition u_drawn (data : list Z) (k : contents) (level : Z) (out : list Z) : Prop :=
  let n := number data 17 1 * level_cols (number data 14 2) level * level_cols (number data 12 2) level in
  exists block, (forall q, 0 <= q < n -> u_drawable (number data 18 1) (u_ce data k) (u_cs data k) (u_ae data k) (u_al data k) (block q)) /\
    out = flat_map block (zrange 0 n).

(** What may become of a level: such a picture; or an error if some code is not
    complete. *)
Definition u_unharmed (data : list Z) (k : contents) (level : Z) (r : res (Z * list Z)) : Prop :=
  let f := number data 18 1 in
  (exists out, u_drawn data k level out /\ r = Ok (f, out)) \/
  (exists x, In x (u_kinds f) /\ incomplete (k_sizes k x)) /\ r = Err (u_lost_in f).

(** The formats that can be unpacked. *)
Definition u_known (data : list Z) : Prop := u_draws_color (number data 18 1) || u_draws_alpha (number data 18 1) = true.

Theorem C72_level m data k level : u_written data k -> level_present data level -> u_unpackable m data level -> u_known data ->
  u_robust data (k_sizes k) -> u_unharmed data k level (unity_crunch_unpack_level m data (zlen data) level).
Proof.
  intros HW (Hl & HL & [H1 H2] & HF) (HM & HS & HZ) Hd HR.
  pose proof (unity_safe m data k level HW Hl HL H1 H2 HF HS HM HZ Hd HR) as S. unfold u_unharmed, u_drawn. cbv zeta in *.
  destruct (unity_crunch_unpack_level m data (zlen data) level) as [[f dxt]|e|]; cbn [safe fst snd] in S; [left|right|contradiction].
  - destruct S as (-> & block & A & ->). eexists. split; [exists block; split; [exact A|reflexivity]|reflexivity].
  - destruct S as [-> I]. auto.
Qed.

(** With complete codes every sequence of bytes is a picture. *)
Theorem C72_complete m data k level : u_written data k -> level_present data level -> u_unpackable m data level -> u_known data ->
  u_robust data (k_sizes k) -> (forall x, In x (u_kinds (number data 18 1)) -> ~ incomplete (k_sizes k x)) ->
  exists out, u_drawn data k level out /\ unity_crunch_unpack_level m data (zlen data) level = Ok (number data 18 1, out).
Proof.
  intros HW HL HU Hd HR HC. destruct (C72_level m data k level HW HL HU Hd HR) as [S|[(x & I & N) _]]; [exact S|]. exfalso. exact (HC x I N).
Qed.

(** Changing the bytes of the levels in any way. *)
Theorem C72_damaged m data data' k n level : u_written data k -> level_present data level -> u_unpackable m data level -> u_known data ->
  u_robust data (k_sizes k) -> bytes data' -> stored_below n data -> same_below n data data' ->
  u_unharmed data k level (unity_crunch_unpack_level m data' (zlen data') level).
Proof.
  intros HW HL HU Hd HR Hb' HS HB. destruct (u_written_same n data data' k HW Hb' HB HS) as (HW' & EH & EL).
  pose proof (proj1 HW) as Hb. assert (0 <= levels_of data) as L0 by (unfold levels_of; pose proof (bytes_znth data 16 Hb); lia).
  pose proof HS as (N & _). unfold header_room in N.
  assert (forall o s, 0 <= o -> o + s <= 70 + 4 * levels_of data -> number data' o s = number data o s) as EN by (intros o s H1 H2; apply (number_same n data data' HB); lia).
  assert (level_start data' level = level_start data level /\ level_stop data' level = level_stop data level) as [Es Et].
  { destruct HL as (Hl & HL & _). split; [apply EN; lia|]. unfold level_stop. rewrite EL, (proj1 HB). destruct (Z.ltb_spec (level + 1) (levels_of data)); [apply EN; lia|reflexivity]. }
  assert (u_unharmed data' k level (unity_crunch_unpack_level m data' (zlen data') level)) as G.
  { apply C72_level; [exact HW'| | | |].
    - unfold level_present. rewrite EL, Es, Et, (proj1 HB), EN by lia. exact HL.
    - unfold u_unpackable. rewrite !EN by lia. exact HU.
    - unfold u_known. rewrite !EN by lia. exact Hd.
    - unfold u_robust. rewrite !EN by lia. exact HR. }
  unfold u_unharmed, u_drawn, u_ce, u_cs, u_ae, u_al in G |- *. rewrite !EN, EH in G by lia. exact G.
Qed.

(** The image decoder on such a file never panics: it reports an error and
    leaves the image alone, or draws blocks of the block format. *)
Theorem C72_image m data k w h image : u_written data k -> level_present data 0 -> u_unpackable m data 0 -> u_known data ->
  u_robust data (k_sizes k) -> zlen data < 2 ^ 32 ->
  (exists x, In x (u_kinds (number data 18 1)) /\ incomplete (k_sizes k x)) /\ decode_unity_crunch m data w h image = Ok (Failed (u_lost_in (number data 18 1)), image) \/
  exists out raw tex, u_drawn data k 0 out /\ unity_texels (number data 18 1) = Some (raw, tex) /\
    answers raw tex out w h image (decode_unity_crunch m data w h image).
Proof.
  intros HW HL HU Hd HR HZ. pose proof (proj1 HW) as Hb. destruct (C72_level m data k 0 HW HL HU Hd HR) as [(out & A & E)|[I E]].
  - right. destruct (C42_unity_picture m data _ _ Hb HZ E) as (raw & tex & T & _ & _ & G). exists out, raw, tex. auto.
  - left. split; [exact I|]. exact (proj2 (C42_errors m data w h image _ Hb HZ) E).
Qed.

(** The hypotheses hold for the first example file: ETC2 with alpha. *)
Lemma eu_robust : u_robust eu_file1 (k_sizes eu_contents1) /\ (forall x, In x (u_kinds 12) -> ~ incomplete (k_sizes eu_contents1 x)).
Proof.
  change (k_sizes eu_contents1) with eu_sizes.
  assert (forall l n, 1 <= n -> zlen l <= n + 1 -> coded l 0 -> moves_in n l) as M.
  { intros l n Hn Hl C. split; [exact Hn|]. split; [exists 0; exact C|]. intros s [S _]. lia. }
  assert (forall l n, zlen l <= n -> coded l 0 -> picks_from n l) as P.
  { intros l n Hl C. split; [exists 0; exact C|]. intros s [S _]. lia. }
  split; [split; [|split]|].
  - exists 16. split; [vm_compute; split; congruence|vm_compute; congruence].
  - intros _. split; [apply M|apply P]; try (vm_compute; congruence); split; try (vm_compute; congruence); vm_compute; split; congruence.
  - intros _. split; [apply M|apply P]; try (vm_compute; congruence); split; try (vm_compute; congruence); vm_compute; split; congruence.
  - intros x [<-|[<-|[<-|[<-|[<-|[]]]]]]; unfold incomplete; vm_compute; congruence.
Qed.
Lemma eu_level_present : level_present eu_file1 0 /\ forall m, u_unpackable m eu_file1 0.
Proof.
  split; [unfold level_present; vm_compute; intuition congruence|]. intros m. split; [right; reflexivity|]. split; [left; reflexivity|]. vm_compute. reflexivity.
Qed.
(** Every four bytes for its level give a picture. *)
Example C72_ex m tail : bytes tail -> zlen tail = 4 ->
  let data := firstn 186 eu_file1 ++ tail in
  exists out, u_drawn eu_file1 eu_contents1 0 out /\ unity_crunch_unpack_level m data (zlen data) 0 = Ok (12, out).
Proof.
  intros Hb Hl data. destruct eu_robust as [R C]. destruct eu_level_present as [L U].
  assert (u_unharmed eu_file1 eu_contents1 0 (unity_crunch_unpack_level m data (zlen data) 0)) as [S|[(x & I & N) _]]; [|exact S|exfalso; exact (C x I N)].
  apply (C72_damaged m eu_file1 data eu_contents1 186 0 eu_written1 L (U m)); [reflexivity|exact R| | |].
  - unfold data. apply Forall_app. split; [apply bytes_firstn, (proj1 eu_written1)|exact Hb].
  - split; [vm_compute; congruence|]. split; [vm_compute; congruence|]. split; intros _; split; vm_compute; congruence.
  - split; [unfold data; rewrite zlen_app, Hl; reflexivity|]. intros i Hi. unfold data.
    rewrite znth_app1 by (change (zlen (firstn 186 eu_file1)) with 186; lia). apply znth_firstn. lia.
Qed.

(** A selector symbol has to be less than the number of selectors, where the
    moves of crunch files may be equal to it: with one selector instead of two in the
    palette of the second example file, the code for selectors still having two
    symbols, the level panics. *)
Definition C72_short : list Z := firstn 48 eu_file2 ++ [1] ++ skipn 49 eu_file2.
Theorem C72_symbols_needed : u_written C72_short eu_contents /\ level_present C72_short 0 /\ u_unpackable Wrapping C72_short 0 /\ u_known C72_short /\
  moves_in (number C72_short 39 2) (eu_sizes ColorEnd) /\ moves_in (number C72_short 47 2) (eu_sizes ColorSel) /\
  unity_crunch_unpack_level Wrapping C72_short (zlen C72_short) 0 = Panic.
Proof.
  assert (forall l n, 1 <= n -> zlen l <= n + 1 -> coded l 0 -> moves_in n l) as M.
  { intros l n Hn Hl C. split; [exact Hn|]. split; [exists 0; exact C|]. intros s [S _]. lia. }
  split; [|split; [|split; [|split; [|split; [|split]]]]].
  - split; [apply bytesb_ok; vm_compute; reflexivity|]. split; [vm_compute; congruence|]. split; [vm_compute; congruence|]. split; [vm_compute; reflexivity|].
    assert (has_color C72_short) as HC by (vm_compute; congruence). assert (~ has_alpha C72_short) as HA by (intros N; apply N; reflexivity).
    split; [left; exact HC|]. split; [|split; [|tauto]].
    + exists it_refs, it_ends, it_sels, [], []. split; [exact coding_refs|]. split; [intros _; split; [exact coding_ends|exact coding_sels]|].
      split; [tauto|]. split; [tauto|]. split; [auto|]. apply eu_fits_ok. vm_compute. reflexivity.
    + intros _. split.
      * change (is_etc (h_format (header_at C72_short))) with false. exists (repeat 5 20), (repeat 5 20), it_five, it_five. split; [exact coding_five|]. split; [exact coding_five|].
        apply eu_fits_ok. vm_compute. reflexivity.
      * exists (repeat 4 16), it_four. split; [exact coding_four|]. split; [intros; apply table_range; [lia|reflexivity]|]. apply eu_fits_ok. vm_compute. reflexivity.
  - unfold level_present; vm_compute; intuition congruence.
  - split; [left; reflexivity|]. split; [left; reflexivity|]. vm_compute. reflexivity.
  - reflexivity.
  - apply M; try (vm_compute; congruence); split; try (vm_compute; congruence); vm_compute; split; congruence.
  - apply M; try (vm_compute; congruence); split; try (vm_compute; congruence); vm_compute; split; congruence.
  - vm_compute. reflexivity.
Qed.

Print Assumptions C72_level.
Print Assumptions C72_complete.
Print Assumptions C72_damaged.
Print Assumptions C72_image.
Print Assumptions C72_symbols_needed.
