(** * C59 and C60: the Python bindings *)
From Verif Require Import Base BaseLemmas ModelColor SpecImage SpecFormats SpecBc SpecBc6 SpecBc7 SpecEtc SpecPvrtc SpecCrnHeader SpecCrnLevel SpecCrnTexel SpecUnity SpecAstc
  ModelBc ModelBc6 ModelBc7 ModelEtc ModelPvrtc ModelAstc ModelCrunch ModelUnity ModelPy SpecPy ProofPy ProofCrnDecode
  PropImage PropBc PropBc6 PropBc7 PropEtc PropPvrtc PropAstc PropCrunch.

(** ** C59 *)
(** The block formats (ATC, ETC2 with punch-through alpha, EAC and BC6 with the
    texels computed by the code, see C17, C22, C24, C15 and C45). *)
Theorem C59_bcn_atc m : py_decoder 4 4 8 bc1_texel (py_decode_bc1 m) /\ py_decoder 4 4 8 bc1a_texel (py_decode_bc1a m) /\
  py_decoder 4 4 16 bc2_texel (py_decode_bc2 m) /\ py_decoder 4 4 16 bc3_texel (py_decode_bc3 m) /\
  py_decoder 4 4 8 bc4_texel (py_decode_bc4 m) /\ py_decoder 4 4 16 bc5_texel (py_decode_bc5 m) /\
  py_decoder 4 4 16 bc7_texel (py_decode_bc7 m) /\
  py_decoder 4 4 8 (atc_rgb4_texel atc_dark_code) (py_decode_atc_rgb4 m) /\
  py_decoder 4 4 16 (atc_rgba8_texel atc_dark_code) (py_decode_atc_rgba8 m).
Proof.
  repeat match goal with |- _ /\ _ => split end; apply py_image_decoder;
  [apply C06_bc1_image_exact|apply C07_bc1a_image_exact|apply C08_bc2_image_exact|apply C09_bc3_image_exact
   |apply C10_bc4_image_exact|apply C10_bc5_image_exact|apply C12_bc7_image_exact|apply C17_atc_rgb_image_code|apply C18_atc_rgba_image_exact].
Qed.
Theorem C59_bc6 : py_decoder 4 4 16 bc6u_code_texel (py_decode_bc6_unsigned Wrapping) /\
  py_decoder 4 4 16 bc6s_code_texel (py_decode_bc6_signed Wrapping).
Proof. split; apply py_image_decoder; [exact C15_bc6u_image_code|exact C45_bc6s_image_code]. Qed.
Theorem C59_etc_eac m : py_decoder 4 4 8 etc1_wrap_texel (py_decode_etc1 m) /\
  py_decoder 4 4 8 (fun b => etc2_texel b 0) (py_decode_etc2_rgb m) /\
  py_decoder 4 4 8 etc2a_code_texel (py_decode_etc2_rgba1 m) /\ py_decoder 4 4 16 etc2_rgba8_texel (py_decode_etc2_rgba8 m) /\
  py_decoder 4 4 8 eacr_code_texel (py_decode_eacr m) /\ py_decoder 4 4 8 eacr_s_code_texel (py_decode_eacr_signed m) /\
  py_decoder 4 4 16 eacrg_code_texel (py_decode_eacrg m) /\ py_decoder 4 4 16 eacrg_s_code_texel (py_decode_eacrg_signed m).
Proof.
  repeat match goal with |- _ /\ _ => split end; apply py_image_decoder;
  [apply C19_etc1_image_exact|apply C20_etc2_rgb_image_exact|apply C22_etc2_rgba1_image_code|apply C23_etc2_rgba8_image_exact
  |apply C24_eac_r_image_code|apply C24_eac_r_signed_image_code|apply C24_eac_rg_image_code|apply C24_eac_rg_signed_image_code].
Qed.
(** PVRTC. *)
Theorem C59_pvrtc m (is2bpp : bool) data w h beyond : py_sane data w h beyond ->
  let bw := pvr_bw is2bpp in let nbx := blocks w bw in let nby := blocks h 4 in nbx * nby * 8 < 2 ^ 64 ->
  let run := (if is2bpp then py_decode_pvrtc_2bpp m else py_decode_pvrtc_4bpp m) data w h beyond in
  (zlen data < nbx * nby * bw -> run = Ok (Raises "The data buffer is too small!", beyond)) /\
  (nbx * nby * bw <= zlen data -> 0 < w -> 0 < h -> ~ (pow2 nbx /\ pow2 nby) ->
     run = Ok (Raises "The number of blocks of each side must be a power of 2!", beyond)) /\
  (forall p q, 0 <= p -> 0 <= q -> nbx = 2 ^ p -> nby = 2 ^ q -> nbx * nby * 8 <= zlen data ->
     exists out, run = Ok (Returns out, beyond) /\
       picture_bytes w h ((if is2bpp then pvr2_pixel else pvr4_pixel) (pvr_blocks data p q) (2 ^ p) (2 ^ q)) out).
Proof.
  intros HS bw nbx nby HN run. destruct (py_size_ok m data w h beyond HS) as [_ P]. destruct (py_room m data w h beyond HS) as [R1 R2].
  pose proof HS as (Hb & W & H & S & _). set (image := py_image (4 * (w * h)) beyond) in *.
  assert (pvr_sane bw data w h image) as PS by (unfold pvr_sane; fold nbx nby; repeat split; try assumption; lia).
  destruct (C25_pvrtc_code m is2bpp data w h image PS) as (A & _ & B). change (pvr_bw is2bpp) with bw in A, B. fold nbx nby in A, B.
  split; [|split].
  - intros D. unfold run. destruct is2bpp; apply (pybind_failed m data w h beyond HS); exact (A D).
  - intros D Hw Hh NP. destruct (B D R1) as (B1 & _). specialize (B1 Hw Hh NP).
    unfold run. destruct is2bpp; apply (pybind_failed m data w h beyond HS); exact B1.
  - intros p q Hp Hq Ep Eq D. unfold run. destruct is2bpp.
    + destruct (C46_pvrtc_2bpp_exact m data w h image p q PS Hp Hq Ep Eq D R1) as (im & E & L & F & G).
      exact (pybind_done m data w h beyond HS _ im _ E L F G).
    + destruct (C28_pvrtc_4bpp_exact m data w h image p q PS Hp Hq Ep Eq D R1) as (im & E & L & F & G).
      exact (pybind_done m data w h beyond HS _ im _ E L F G).
Qed.
(** ASTC with a fixed footprint. *)
Theorem C59_astc m bw bh data w h beyond : footprint bw bh -> py_sane data w h beyond ->
  let need := blocks w bw * blocks h bh * 16 in need < 2 ^ 64 ->
  let run := py_decode_astc_sized m bw bh data w h beyond in
  (zlen data < need -> run = Ok (Raises "Not enough data to decode image!", beyond)) /\
  (need <= zlen data -> (forall k, 0 <= k < blocks w bw * blocks h bh -> well_formed (astc_word (block_bytes 16 k data))) ->
     exists out, run = Ok (Returns out, beyond) /\
       picture_bytes w h (fun x y => astc_texel_with extend16 bw bh (astc_word (block_bytes 16 ((y / bh) * blocks w bw + x / bw) data))
                                       ((y mod bh) * bw + x mod bw)) out) /\
  (forall a b, run = Ok (a, b) -> need <= zlen data -> b = beyond /\
     exists out, a = Returns out /\
       picture_bytes w h (fun x y => block_texel m data bw bh ((y / bh) * blocks w bw + x / bw) ((y mod bh) * bw + x mod bw)) out).
Proof.
  intros HF HS need HN run. destruct (py_size_ok m data w h beyond HS) as [ES P]. destruct (py_room m data w h beyond HS) as [R1 R2].
  pose proof HS as (Hb & W & H & S & _). set (image := py_image (4 * (w * h)) beyond) in *. destruct (footprint_size _ _ HF) as (F1 & F2 & F3).
  assert (astc_sane data w h bw bh image) as PS by (unfold astc_sane; fold need; repeat split; try assumption; lia).
  split; [|split].
  - intros D. apply (pybind_failed m data w h beyond HS). exact (proj1 (C29_validation m data w h bw bh image PS) F3 D).
  - intros D WF. destruct (C29_well_formed_image m data w h bw bh image PS ltac:(lia) ltac:(lia) F3 D R1 WF) as (im & E & L & F & G).
    exact (pybind_done m data w h beyond HS _ im _ E L F G).
  - intros a b E D. pose proof E as E0. unfold run, py_decode_astc_sized, pybind in E. rewrite ES in E. cbn [bind] in E.
    fold image in E. change (decode_astc_sized m bw bh data w h image) with (decode_astc m data w h bw bh image) in E.
    destruct (decode_astc m data w h bw bh image) as [[st im]|msg|] eqn:EA; cbn [bind] in E; try discriminate.
    destruct (proj2 (C29_placement m data w h bw bh image PS F3 D R1) st im EA) as (-> & _ & L & F & G).
    destruct (pybind_done m data w h beyond HS (decode_astc_sized m bw bh) im _ EA L F G) as (out & EO & PB).
    assert (Ok (Returns out, beyond) = Ok (a, b)) as Q by (etransitivity; [symmetry; exact EO|exact E0]). injection Q as <- <-. split; [reflexivity|]. exists out. split; [reflexivity|exact PB].
Qed.
(** What a binding answers for blocks [dxt] of 4 x 4 texels. *)
Definition py_answers (raw : Z) (tex : list Z -> Z -> Z) (dxt : list Z) (w h : Z) (beyond : list Z) (r : res (answer * list Z)) : Prop :=
  (zlen dxt < blocks w 4 * blocks h 4 * raw -> r = Ok (Raises "Not enough data to decode image!", beyond)) /\
  (blocks w 4 * blocks h 4 * raw <= zlen dxt -> exists out, r = Ok (Returns out, beyond) /\
     picture_bytes w h (fun x y => tex (block_bytes raw ((y / 4) * blocks w 4 + x / 4) dxt) ((y mod 4) * 4 + x mod 4)) out).
Lemma answers_py m raw tex dec data dxt w h beyond : py_sane data w h beyond -> blocks w 4 * blocks h 4 * raw < 2 ^ 64 ->
  (forall w h image, answers raw tex dxt w h image (dec data w h image)) -> py_answers raw tex dxt w h beyond (pybind m dec data w h beyond).
Proof.
  intros HS HN A. destruct (py_size_ok m data w h beyond HS) as [_ P]. destruct (py_room m data w h beyond HS) as [R1 R2].
  pose proof HS as (Hb & W & H & S & _). destruct (A w h (py_image (4 * (w * h)) beyond) W H R2 HN ltac:(lia)) as (A1 & _ & A3). split; intros D.
  - apply pybind_failed; auto.
  - destruct (A3 D R1) as (im & E & L & F & G). exact (pybind_done m data w h beyond HS dec im _ E L F G).
Qed.
(** Crunch and Unity crunch. *)
Theorem C59_crunch m data w h beyond : py_sane data w h beyond -> zlen data < 2 ^ 32 -> blocks w 4 * blocks h 4 * 16 < 2 ^ 64 ->
  (forall f dxt, crunch_unpack_level m data (zlen data) 0 = Ok (f, dxt) ->
     exists raw tex, crunch_texels (number data 18 1) = Some (raw, tex) /\ py_answers raw tex dxt w h beyond (py_decode_crunch m data w h beyond)) /\
  (forall msg, crunch_unpack_level m data (zlen data) 0 = Err msg -> py_decode_crunch m data w h beyond = Ok (Raises msg, beyond)).
Proof.
  intros HS Hl HN. pose proof HS as (Hb & _). split.
  - intros f dxt U. destruct (C42_crunch_picture m data f dxt Hb Hl U) as (raw & tex & T & _ & _ & A). exists raw, tex. split; [exact T|].
    apply answers_py; [exact HS| |intros; apply A]. unfold crunch_texels in T.
    assert (raw = 8 \/ raw = 16) as [-> | ->] by (repeat match type of T with context [if ?b then _ else _] => destruct b end; first [discriminate T|apply some_pair in T; destruct T; auto]); [|exact HN].
    unfold blocks in *. pose proof HS as (_ & W & H & _). assert (0 <= (w + 4 - 1) / 4) by (apply Z.div_pos; lia). assert (0 <= (h + 4 - 1) / 4) by (apply Z.div_pos; lia).
    assert (0 <= (w + 4 - 1) / 4 * ((h + 4 - 1) / 4)) by (apply Z.mul_nonneg_nonneg; lia). lia.
  - intros msg U. apply (pybind_failed m data w h beyond HS). exact (proj1 (C42_errors m data w h _ msg Hb Hl) U).
Qed.
Theorem C59_unity_crunch m data w h beyond : py_sane data w h beyond -> zlen data < 2 ^ 32 -> blocks w 4 * blocks h 4 * 16 < 2 ^ 64 ->
  (forall f dxt, unity_crunch_unpack_level m data (zlen data) 0 = Ok (f, dxt) ->
     exists raw tex, unity_texels (number data 18 1) = Some (raw, tex) /\ py_answers raw tex dxt w h beyond (py_decode_unity_crunch m data w h beyond)) /\
  (forall msg, unity_crunch_unpack_level m data (zlen data) 0 = Err msg -> py_decode_unity_crunch m data w h beyond = Ok (Raises msg, beyond)).
Proof.
  intros HS Hl HN. pose proof HS as (Hb & _). split.
  - intros f dxt U. destruct (C42_unity_picture m data f dxt Hb Hl U) as (raw & tex & T & _ & _ & A). exists raw, tex. split; [exact T|].
    apply answers_py; [exact HS| |intros; apply A]. unfold unity_texels, crunch_texels in T.
    assert (raw = 8 \/ raw = 16) as [-> | ->] by (repeat match type of T with context [if ?b then _ else _] => destruct b end; first [discriminate T|apply some_pair in T; destruct T; auto]); [|exact HN].
    unfold blocks in *. pose proof HS as (_ & W & H & _). assert (0 <= (w + 4 - 1) / 4) by (apply Z.div_pos; lia). assert (0 <= (h + 4 - 1) / 4) by (apply Z.div_pos; lia).
    assert (0 <= (w + 4 - 1) / 4 * ((h + 4 - 1) / 4)) by (apply Z.mul_nonneg_nonneg; lia). lia.
  - intros msg U. apply (pybind_failed m data w h beyond HS). exact (proj2 (C42_errors m data w h _ msg Hb Hl) U).
Qed.
(** Sizes whose number of bytes overflows: a panic with overflow checks, else an
    exception, although the object made is too small. *)
Theorem C59_huge_sizes raw bd dec data w h beyond : In (raw, bd, dec) (formats Wrapping) ->
  bytes data -> 0 <= w < 2 ^ 64 -> 0 <= h < 2 ^ 64 -> w * h < 2 ^ 64 -> 2 ^ 64 <= 4 * (w * h) -> blocks w 4 * blocks h 4 * raw < 2 ^ 64 ->
  let n := 4 * (w * h) mod 2 ^ 64 in n < 2 ^ 61 -> zlen beyond = n - n / 4 ->
  (exists msg, pybind Wrapping dec data w h beyond = Ok (Raises msg, beyond)) /\
  forall dec', pybind Checked dec' data w h beyond = Panic.
Proof.
  intros HF Hb W H A O N n Hn HB.
  assert (0 <= n) as Hn0 by (apply Z.mod_pos_bound; lia). assert (0 <= n / 4 <= n) as Hq by (pose proof (Z.div_mod n 4 ltac:(lia)); pose proof (Z.mod_pos_bound n 4 ltac:(lia)); lia).
  set (image := py_image n beyond). assert (zlen image = n) as HL by (unfold image, py_image; rewrite zlen_app, HB; unfold zlen; rewrite repeat_length; lia).
  assert (sane raw data w h image) as HS by (unfold sane; repeat split; try assumption; lia).
  assert (0 <= w * h) as HP by (apply Z.mul_nonneg_nonneg; lia).
  split.
  - destruct (C01_size_validation Wrapping raw bd dec data w h image HF HS) as (st & im & E & K1 & K2 & K3).
    destruct (C03_frame Wrapping raw bd dec data w h image st im HF HS E) as (_ & _ & F).
    assert (st <> Done) as ND by (intros D; apply K3 in D; lia). rewrite (F ND) in E.
    destruct st as [|msg]; [congruence|]. exists msg. unfold pybind, py_size. rewrite ua_ok by lia. cbn [bind].
    unfold ua. destruct (Z.ltb_spec (w * h * 4) (2 ^ 64)); [lia|]. rewrite andb_false_r. replace (w * h * 4) with (4 * (w * h)) by ring. fold n. cbn [bind]. fold image. rewrite E. cbn [bind]. f_equal. f_equal.
    unfold py_beyond, image, py_image. rewrite skipn_app, repeat_length, Nat.sub_diag, skipn_all2 by (rewrite repeat_length; lia). reflexivity.
  - intros dec'. unfold pybind, py_size. rewrite ua_ok by lia. cbn [bind]. unfold ua. destruct (Z.ltb_spec (w * h * 4) (2 ^ 64)); [lia|].
    rewrite andb_false_r. reflexivity.
Qed.
(** 2^32 x 2^30 texels. *)
Example C59_huge_ex : let w := 2 ^ 32 in let h := 2 ^ 30 in w * h < 2 ^ 64 /\ 2 ^ 64 <= 4 * (w * h) /\ 4 * (w * h) mod 2 ^ 64 = 0 /\
  blocks w 4 * blocks h 4 * 8 < 2 ^ 64 /\ py_decode_bc1 Wrapping [1; 2] w h [] = Ok (Raises "Not enough data to decode image!", []) /\
  py_decode_bc1 Checked [1; 2] w h [] = Panic.
Proof. vm_compute. intuition discriminate. Qed.
(** A 5 x 1 picture of two BC1 blocks, blue and green: 20 bytes in the order
    blue, green, red, alpha; 15 words behind the object are untouched. *)
Definition py_two : list Z := [0x1F; 0; 0x1F; 0; 0; 0; 0; 0; 0xE0; 0x07; 0xE0; 0x07; 0; 0; 0; 0].
Example C59_ex m : py_sane py_two 5 1 (repeat 9 15) /\
  py_decode_bc1 m py_two 5 1 (repeat 9 15) =
    Ok (Returns [255; 0; 0; 255; 255; 0; 0; 255; 255; 0; 0; 255; 255; 0; 0; 255; 0; 255; 0; 255], repeat 9 15) /\
  py_decode_bc1 m py_two 9 1 (repeat 9 27) = Ok (Raises "Not enough data to decode image!", repeat 9 27) /\
  py_decode_astc_sized m 4 4 (ex_void ++ ex_legal) 5 1 (repeat 9 15) =
    Ok (Returns [30; 20; 10; 40; 30; 20; 10; 40; 30; 20; 10; 40; 30; 20; 10; 40; 191; 191; 191; 255], repeat 9 15) /\
  py_decode_crunch m ex_file1 16 12 (repeat 9 576) = Ok (Raises "Not enough data to decode image!", repeat 9 576).
Proof.
  split; [split; [repeat constructor; unfold is_byte; lia|vm_compute; intuition discriminate]|].
  destruct m; vm_compute; auto.
Qed.
Print Assumptions C59_bcn_atc.
Print Assumptions C59_bc6.
Print Assumptions C59_etc_eac.
Print Assumptions C59_pvrtc.
Print Assumptions C59_astc.
Print Assumptions C59_crunch.
Print Assumptions C59_unity_crunch.
Print Assumptions C59_huge_sizes.

(** ** C60 *)
(** The full claim for the function taking the block size: the picture for
    well-formed blocks, an exception if there is not enough data. *)
Definition C60_statement : Prop := forall m bw bh data w h beyond, 2 <= bw -> 2 <= bh -> bw * bh <= 144 -> py_sane data w h beyond ->
  let need := blocks w bw * blocks h bh * 16 in need < 2 ^ 64 ->
  let run := py_decode_astc m data w h bw bh beyond in
  (zlen data < need -> exists msg, run = Ok (Raises msg, beyond)) /\
  (need <= zlen data -> (forall k, 0 <= k < blocks w bw * blocks h bh -> well_formed (astc_word (block_bytes 16 k data))) ->
     exists out, run = Ok (Returns out, beyond) /\
       picture_bytes w h (fun x y => astc_texel_with extend16 bw bh (astc_word (block_bytes 16 ((y / bh) * blocks w bw + x / bw) data))
                                       ((y mod bh) * bw + x mod bw)) out).
(** What the code does: a black transparent picture if decoding fails; never an
    answer if there is enough data, and a panic if the blocks are fine. *)
Theorem C60_astc_code m bw bh data w h beyond : 0 < bw -> 0 < bh -> py_sane data w h beyond ->
  let need := blocks w bw * blocks h bh * 16 in need < 2 ^ 64 ->
  let run := py_decode_astc m data w h bw bh beyond in
  (bw * bh <= 144 -> zlen data < need -> run = Ok (Returns (repeat 0 (Z.to_nat (4 * (w * h)))), beyond)) /\
  (144 < bw * bh < 2 ^ 64 -> need <= zlen data -> run = Ok (Returns (repeat 0 (Z.to_nat (4 * (w * h)))), beyond)) /\
  (bw * bh <= 144 -> need <= zlen data -> forall r, run <> Ok r) /\
  (2 <= bw -> 2 <= bh -> bw * bh <= 144 -> need <= zlen data ->
     (forall k, 0 <= k < blocks w bw * blocks h bh -> well_formed (astc_word (block_bytes 16 k data))) -> run = Panic).
Proof.
  intros Hw Hh HS need HN run. destruct (py_size_ok m data w h beyond HS) as [ES P]. destruct (py_room m data w h beyond HS) as [R1 R2].
  pose proof HS as (Hb & W & H & S & _). unfold run, py_decode_astc. rewrite ES. cbn [bind].
  pose proof (py_zeros m data w h beyond HS) as PZ. pose proof (py_beyond_same m data w h beyond HS _ (zlen_py_image m data w h beyond HS) (fun j _ => eq_refl)) as PB.
  set (image := py_image (4 * (w * h)) beyond) in *.
  assert (astc_sane data w h bw bh image) as PS by (unfold astc_sane; fold need; repeat split; try assumption; lia).
  split; [|split; [|split]].
  - intros F3 D. rewrite (proj1 (C29_validation m data w h bw bh image PS) F3 D). cbn [bind]. rewrite PZ, PB. reflexivity.
  - intros F3 D. rewrite (proj2 (proj2 (C29_validation m data w h bw bh image PS)) F3 D R1). cbn [bind]. rewrite PZ, PB. reflexivity.
  - intros F3 D r. destruct (decode_astc m data w h bw bh image) as [[st im]|msg|] eqn:EA; cbn [bind]; try discriminate.
    destruct (proj2 (C29_placement m data w h bw bh image PS F3 D R1) st im EA) as (-> & _). discriminate.
  - intros B1 B2 F3 D WF. destruct (C29_well_formed_image m data w h bw bh image PS B1 B2 F3 D R1 WF) as (im & E & _). rewrite E. reflexivity.
Qed.
(** What remains of the claim: nothing is written behind the object, which has
    the right size.  Missing: everything else. *)
Theorem C60_astc_partial m bw bh data w h beyond a b : 0 < bw -> 0 < bh -> bw * bh < 2 ^ 64 -> py_sane data w h beyond ->
  blocks w bw * blocks h bh * 16 < 2 ^ 64 -> bw * bh <= 144 \/ blocks w bw * blocks h bh * 16 <= zlen data ->
  py_decode_astc m data w h bw bh beyond = Ok (a, b) -> b = beyond /\ exists out, a = Returns out /\ zlen out = 4 * (w * h).
Proof.
  intros Hw Hh HA HS HN HD E. destruct (C60_astc_code m bw bh data w h beyond Hw Hh HS HN) as (A & B & C & _).
  destruct (py_size_ok m data w h beyond HS) as [_ P].
  assert (py_decode_astc m data w h bw bh beyond = Ok (Returns (repeat 0 (Z.to_nat (4 * (w * h)))), beyond)) as E2.
  { destruct (Z.le_gt_cases (bw * bh) 144) as [L|L].
    - destruct (Z.le_gt_cases (blocks w bw * blocks h bh * 16) (zlen data)) as [D|D]; [|auto]. destruct (C L D _ E).
    - apply B; lia. }
  assert (forall N : list Z, Ok (Returns N, beyond) = Ok (a, b) -> b = beyond /\ a = Returns N) as Q by (intros N K; injection K; auto).
  rewrite E2 in E. destruct (Q _ E) as [-> ->]. split; [reflexivity|]. eexists. split; [reflexivity|]. unfold zlen. rewrite repeat_length. lia.
Qed.
(** A good picture panics, a short one gives zeros. *)
Theorem C60_astc_refuted : ~ C60_statement /\
  forall m, py_decode_astc m (ex_void ++ ex_legal) 5 1 4 4 (repeat 9 15) = Panic /\
    py_decode_astc m ex_void 5 1 4 4 (repeat 9 15) = Ok (Returns (repeat 0 20), repeat 9 15).
Proof.
  assert (forall m, py_decode_astc m (ex_void ++ ex_legal) 5 1 4 4 (repeat 9 15) = Panic /\
    py_decode_astc m ex_void 5 1 4 4 (repeat 9 15) = Ok (Returns (repeat 0 20), repeat 9 15)) as P by (intros []; vm_compute; auto).
  split; [|exact P]. intros H. destruct (H Checked 4 4 ex_void 5 1 (repeat 9 15)) as [K _]; try lia.
  - split; [repeat constructor; unfold is_byte; lia|vm_compute; intuition discriminate].
  - vm_compute; reflexivity.
  - destruct K as (msg & E); [vm_compute; reflexivity|]. rewrite (proj2 (P Checked)) in E. discriminate.
Qed.
Example C60_ex m : py_sane ex_void 5 1 (repeat 9 15) /\ py_sane (ex_void ++ ex_legal) 5 1 (repeat 9 15) /\ py_sane ex_void 3 2 (repeat 9 18) /\
  blocks 5 4 * blocks 1 4 * 16 = 32 /\ zlen ex_void = 16 /\ zlen (ex_void ++ ex_legal) = 32 /\
  py_decode_astc m ex_void 5 1 4 4 (repeat 9 15) = Ok (Returns (repeat 0 20), repeat 9 15) /\
  py_decode_astc m ex_void 3 2 16 16 (repeat 9 18) = Ok (Returns (repeat 0 24), repeat 9 18) /\
  py_decode_astc m (ex_void ++ ex_legal) 5 1 4 4 (repeat 9 15) = Panic.
Proof.
  do 3 (split; [split; [repeat constructor; unfold is_byte; lia|vm_compute; intuition discriminate]|]).
  destruct m; vm_compute; auto 10.
Qed.
Print Assumptions C60_astc_code.
Print Assumptions C60_astc_partial.
Print Assumptions C60_astc_refuted.
