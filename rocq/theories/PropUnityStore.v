(** * C67: what Unity crunch files can show, every picture that fits its palettes *)
From Verif Require Import Base BaseLemmas ModelColor ModelCrn ModelUnity SpecImage SpecCrn SpecCrnHeader SpecCrnLevel SpecCrnFile SpecCrnSound SpecCrnStore SpecCrnTexel SpecUnity SpecUnityFile SpecUnitySound SpecUnityStore
  ProofCrnHeader ProofCrnGrid ProofCrnLevel ProofCrnFile ProofCrnPalette ProofCrnStore ProofUnityPalette ProofUnityGrid ProofUnitySound ProofUnityStore ProofUnityStoreLevel ProofUnityStoreWhole PropUnity PropSound.

(** A stored file is a file of the format: the header, the codes, the palettes
    and every level. *)
Theorem C67_store_written f w h faces levels Q P : u_storable f w h faces levels Q P ->
  let data := u_store f w h faces levels Q P in
  let k := u_stored_contents f Q in
  u_written data k /\ u_ce data k = pal_ce f Q /\ u_cs data k = pal_cs f Q /\ u_ae data k = pal_ae Q /\ u_al data k = pal_al f Q /\
  number data 12 2 = w /\ number data 14 2 = h /\ number data 17 1 = faces /\ number data 18 1 = f /\ levels_of data = levels /\
  forall level, 0 <= level < levels ->
    u_level_written data k level (u_stored_level f Q (P level) (level_cols w level) (level_cols h level)).
Proof.
  intros St data k. destruct (us_palettes f w h faces levels Q P St) as (E1 & E2 & E3 & E4).
  split; [exact (us_written f w h faces levels Q P St)|]. split; [exact E1|]. split; [exact E2|]. split; [exact E3|]. split; [exact E4|].
  split; [exact (us_w f w h faces levels Q P St)|]. split; [exact (us_h f w h faces levels Q P St)|]. split; [exact (us_faces f w h faces levels Q P St)|].
  split; [exact (us_format f w h faces levels Q P St)|]. split; [exact (us_levels f w h faces levels Q P St)|].
  intros level Hl. exact (us_level_written f w h faces levels Q P St level Hl).
Qed.

(** Every level of a stored file is unpacked to the picture that was stored.
    The three conditions are necessary: see C43. *)
Theorem C67_round_trip m f w h faces levels Q P level : u_storable f w h faces levels Q P -> 0 <= level < levels ->
  let data := u_store f w h faces levels Q P in
  let W := level_cols w level in let H := level_cols h level in
  let fits := (m = Wrapping \/ W mod 2 = 0) /\ (faces = 1 \/ H mod 2 = 0) /\ W * H * u_block_size f < 2 ^ 32 in
  (fits -> unity_crunch_unpack_level m data (zlen data) level = Ok (f, u_picture f Q (P level) W H faces)) /\
  (~ fits -> forall r, unity_crunch_unpack_level m data (zlen data) level <> Ok r).
Proof.
  intros St Hl data W H fits. destruct (C67_store_written f w h faces levels Q P St) as (HWr & _ & _ & _ & _ & Ew & Eh & Ef & Em & _ & HLv).
  fold data in HWr, Ew, Eh, Ef, Em, HLv. specialize (HLv level Hl).
  pose proof (C43_unity_level_code m data _ level _ HWr HLv) as [A B]. unfold u_unpackable in A, B. rewrite Ew, Eh, Ef, Em in A, B. fold W H in A, B.
  pose proof (us_picture f w h faces levels Q P St level Hl) as EP. fold data W H in EP. rewrite EP in A.
  split; [exact A|exact B].
Qed.

(** Decoding a stored file gives the texels of the blocks drawn. *)
Theorem C67_decode m f w h faces levels Q P image : u_storable f w h faces levels Q P ->
  let data := u_store f w h faces levels Q P in
  let W := level_cols w 0 in let H := level_cols h 0 in
  w * h <= zlen image -> 4 * zlen image < 2 ^ 63 ->
  m = Wrapping \/ W mod 2 = 0 -> faces = 1 \/ H mod 2 = 0 -> W * H * u_block_size f < 2 ^ 32 ->
  exists raw tex image', unity_texels f = Some (raw, tex) /\
    decode_unity_crunch m data w h image = Ok (Done, image') /\ zlen image' = zlen image /\
    (forall x y, 0 <= x < w -> 0 <= y < h -> znth image' (y * w + x) = tex (u_draw f Q (P 0 0 (x / 4) (y / 4))) (y mod 4 * 4 + x mod 4)) /\
    (forall j, w * h <= j < zlen image -> znth image' j = znth image j).
Proof.
  intros St data W H Hi Hi2 HM HF HS. destruct (C67_store_written f w h faces levels Q P St) as (HWr & _ & _ & _ & _ & Ew & Eh & Ef & Em & _ & HLv).
  fold data in HWr, Ew, Eh, Ef, Em, HLv. pose proof St as (_ & Rw & Rh & Rf & HL & _ & _ & LD). fold data in LD. specialize (HLv 0 ltac:(lia)).
  pose proof (C58_unity_file_partial m data _ _ image HWr HLv LD) as C. cbv zeta in C. rewrite Ew, Eh, Ef, Em in C. fold W H in C.
  destruct (C ltac:(lia) ltac:(lia) Hi Hi2 HM HF HS) as (raw & tex & image' & T & E & L & X & O). clear C.
  exists raw, tex, image'. split; [exact T|]. split; [exact E|]. split; [exact L|]. split; [|exact O].
  intros x y Hx Hy. rewrite (X x y Hx Hy).
  assert (forall n a, 1 <= n -> 0 <= a < n -> 0 <= a / 4 < level_cols n 0) as B.
  { intros n a Hn Ha. unfold level_cols, level_size. change (2 ^ 0) with 1. rewrite Z.div_1_r, Z.max_r by lia. split; [apply Z.div_pos; lia|].
    pose proof (Z.div_mod a 4 ltac:(lia)). pose proof (Z.mod_pos_bound a 4 ltac:(lia)). pose proof (Z.div_mod (n + 3) 4 ltac:(lia)). pose proof (Z.mod_pos_bound (n + 3) 4 ltac:(lia)). lia. }
  pose proof (us_block_at f w h faces levels Q P St 0 0 (x / 4) (y / 4) ltac:(lia) ltac:(lia) (B w x ltac:(lia) Hx) (B h y ltac:(lia) Hy)) as U.
  fold data W H in U. rewrite U. reflexivity.
Qed.

(** The size of the file: at most 10 bytes per block, counting even numbers of
    columns and rows, and less than 400 kB besides. *)
Theorem C67_size f w h faces levels Q P : 0 <= levels <= 16 -> 0 <= w -> 0 <= h -> 0 <= faces -> u_palettes_ok f Q ->
  zlen (u_store f w h faces levels Q P) <= 400000 + zsum levels (fun level => 10 * u_blocks (level_cols w level) (level_cols h level) faces + 2).
Proof. exact (u_store_size f w h faces levels Q P). Qed.

(** The blocks that can be drawn with the palettes are exactly the ones that C65
    allows for a file with these palettes. *)
Theorem C67_drawable f Q b : u_palettes_ok f Q ->
  (u_drawable f (pal_ce f Q) (pal_cs f Q) (pal_ae Q) (pal_al f Q) b <-> exists c, u_cell_ok f Q c /\ b = u_draw f Q c).
Proof.
  intros OK. unfold u_drawable, u_cell_ok, u_draw. destruct (has_halves f) eqn:EH.
  - assert (is_etc f = true) as EE by (unfold has_halves in EH; unfold is_etc; lia).
    pose proof (len_ce f Q OK) as L1. pose proof (len_ae f Q OK) as L2. pose proof (len_cs f Q OK) as L3. pose proof (len_al f Q OK) as L4. rewrite EH in L3.
    assert (forall i, 0 <= i < n_color_ends Q -> five_bits (znth (pal_ce f Q) i) /\ color_byte (znth (pal_ce f Q) i) 3 < 8) as FB.
    { intros i Hi. unfold pal_ce. rewrite EH. cbv zeta. fold (tab (n_color_ends Q) (fun i => digits 256 4 (v_color_ends Q i))). rewrite znth_tab by exact Hi.
      destruct OK as (_ & _ & _ & _ & OK & _). rewrite EE in OK. unfold component_size in OK. rewrite EE in OK.
      assert (forall k, 0 <= k < 4 -> 0 <= v_color_ends Q i k < 2 ^ 8) as R by (intros k Hk; pose proof (OK i k Hi Hk); destruct (k =? 3); lia).
      assert (forall k, 0 <= k < 4 -> color_byte (digits 256 4 (v_color_ends Q i)) k = v_color_ends Q i k) as CB.
      { intros k Hk. unfold color_byte. change 256 with (2 ^ 8). rewrite <- Z.pow_mul_r by lia. exact (digits_nth 8 4 (v_color_ends Q i) k ltac:(lia) Hk R). }
      split; [split|].
      - exact (digits_bound 256 4 (v_color_ends Q i) ltac:(lia) ltac:(lia) R).
      - intros k Hk. rewrite CB by exact Hk. pose proof (OK i k Hi Hk). destruct (k =? 3); lia.
      - rewrite CB by lia. exact (proj2 (OK i 3 Hi ltac:(lia))). }
    assert (forall a c flip, 0 <= a < n_color_ends Q -> 0 <= c < n_color_ends Q -> loose_head (znth (pal_ce f Q) a) (znth (pal_ce f Q) c) flip = etc_head (znth (pal_ce f Q) a) (znth (pal_ce f Q) c) flip) as LH.
    { intros a c flip Ha Hc. destruct (FB a Ha). destruct (FB c Hc). apply loose_head_strict; assumption. }
    unfold halves_block, color_no. split.
    + intros (a & c & s & flip & ea & sa & Ha & Hc & Hs & Hf & HA & ->). rewrite L1 in Ha, Hc. rewrite L3 in Hs by lia. rewrite LH by assumption.
      exists (mkUCell (fun p => if (f =? 12) && (p =? 0) then ea else a) (fun p => if (f =? 12) && (p =? 0) then sa else s) c flip). cbn [uc_end uc_sel uc_second uc_flip].
      destruct (Z.eqb_spec f 12) as [E|E]; cbn [andb Z.eqb].
      * destruct (HA eq_refl) as (A1 & A2 & A3). rewrite L2 in A1. rewrite L4 in A3 by lia. destruct (Z.eqb_spec f 12); [|contradiction].
        split; [repeat split; lia|]. cbn [flat_map]. rewrite app_nil_r, Z.add_0_r. reflexivity.
      * split; [repeat split; lia|]. reflexivity.
    + intros (c & (C1 & C2 & C3 & C4 & C5) & ->). exists (uc_end c (if f =? 12 then 1 else 0)), (uc_second c), (uc_sel c (if f =? 12 then 1 else 0)), (uc_flip c), (uc_end c 0), (uc_sel c 0).
      rewrite L1, L2. rewrite L3 by lia. rewrite LH by assumption. split; [exact C1|]. split; [exact C2|]. split; [lia|]. split; [exact C4|].
      destruct (Z.eqb_spec f 12) as [E|E].
      * destruct (C5 E) as [A1 A2]. split; [intros _; rewrite L4 by lia; lia|]. cbn [flat_map]. rewrite app_nil_r, Z.add_0_r. reflexivity.
      * split; [discriminate|reflexivity].
  - unfold plain_block. split.
    + intros (e & s & R & ->). exists (mkUCell e s 0 0). split; [exact R|reflexivity].
    + intros (c & R & ->). exists (uc_end c), (uc_sel c). split; [exact R|reflexivity].
Qed.

(** So any blocks that the palettes allow can be unpacked from some file, in any
    order. *)
Lemma finite_choice {A} (n : nat) (R : Z -> A -> Prop) (d : A) : (forall q, 0 <= q < Z.of_nat n -> exists a, R q a) ->
  exists g, forall q, 0 <= q < Z.of_nat n -> R q (g q).
Proof.
  induction n as [|n IH]; intros H.
  - exists (fun _ => d). lia.
  - destruct IH as [g G]; [intros q Hq; apply H; lia|]. destruct (H (Z.of_nat n) ltac:(lia)) as [a Ha].
    exists (fun q => if q =? Z.of_nat n then a else g q). intros q Hq. cbv beta. destruct (Z.eqb_spec q (Z.of_nat n)) as [->|N]; [exact Ha|apply G; lia].
Qed.
Theorem C67_any_blocks m f w h faces Q block :
  let W := level_cols w 0 in let H := level_cols h 0 in
  f = 0 \/ 2 <= f <= 14 -> 1 <= w < 2 ^ 16 -> 1 <= h < 2 ^ 16 -> 1 <= faces < 2 ^ 8 -> u_palettes_ok f Q ->
  (forall q, 0 <= q < faces * H * W -> u_drawable f (pal_ce f Q) (pal_cs f Q) (pal_ae Q) (pal_al f Q) (block q)) ->
  m = Wrapping \/ W mod 2 = 0 -> faces = 1 \/ H mod 2 = 0 -> W * H * u_block_size f < 2 ^ 32 -> faces * H * W <= 100000000 ->
  exists data, bytes data /\ zlen data < 2 ^ 32 /\ number data 12 2 = w /\ number data 14 2 = h /\ number data 17 1 = faces /\
    unity_crunch_unpack_level m data (zlen data) 0 = Ok (f, flat_map block (zrange 0 (faces * H * W))).
Proof.
  intros W H Hf Hw Hh HF OK HB HM HR HS HN.
  destruct (level_cols_eq w 0 ltac:(lia) ltac:(lia)) as [_ HW1]. destruct (level_cols_eq h 0 ltac:(lia) ltac:(lia)) as [_ HH1]. fold W in HW1. fold H in HH1.
  assert (0 <= faces * H * W) as N0 by (apply Z.mul_nonneg_nonneg; [apply Z.mul_nonneg_nonneg|]; lia).
  destruct (finite_choice (Z.to_nat (faces * H * W)) (fun q c => u_cell_ok f Q c /\ block q = u_draw f Q c) blank) as [g G].
  { rewrite Z2Nat.id by exact N0. intros q Hq. apply (C67_drawable f Q (block q) OK). exact (HB q Hq). }
  rewrite Z2Nat.id in G by exact N0.
  pose (P := fun _ a x y : Z => g ((a * H + y) * W + x)).
  assert (zlen (u_store f w h faces 1 Q P) < 2 ^ 32) as SZ.
  { pose proof (C67_size f w h faces 1 Q P ltac:(lia) ltac:(lia) ltac:(lia) ltac:(lia) OK) as S.
    change 1 with (0 + 1) in S at 2. rewrite zsum_succ, zsum_0 in S by lia. cbv beta in S. fold W H in S. unfold u_blocks, u_rows, u_cols in S.
    pose proof (even_up_bounds W HW1) as B1. pose proof (even_up_bounds H HH1) as B2.
    assert (faces * even_up H * even_up W <= 4 * (faces * H * W)) as B3.
    { replace (4 * (faces * H * W)) with (faces * (2 * H) * (2 * W)) by ring. apply Z.mul_le_mono_nonneg; [apply Z.mul_nonneg_nonneg; lia|apply Z.mul_le_mono_nonneg_l; lia|lia|lia]. }
    lia. }
  assert (u_storable f w h faces 1 Q P) as St.
  { split; [exact Hf|]. split; [exact Hw|]. split; [exact Hh|]. split; [exact HF|]. split; [lia|]. split; [exact OK|]. split; [|exact SZ].
    intros level a x y Hl Ha Hx Hy. replace level with 0 in * by lia. fold W in Hx. fold H in Hy. unfold P. apply G. split.
    - apply Z.add_nonneg_nonneg; [|lia]. apply Z.mul_nonneg_nonneg; [|lia]. apply Z.add_nonneg_nonneg; [|lia]. apply Z.mul_nonneg_nonneg; lia.
    - assert ((a + 1) * H <= faces * H) by (apply Z.mul_le_mono_nonneg_r; lia). assert ((a * H + y + 1) * W <= faces * H * W) by (apply Z.mul_le_mono_nonneg_r; lia). lia. }
  exists (u_store f w h faces 1 Q P). destruct (C67_store_written _ _ _ _ _ _ _ St) as (HWr & _ & _ & _ & _ & Ew & Eh & Ef & _).
  split; [exact (proj1 HWr)|]. split; [exact SZ|]. split; [exact Ew|]. split; [exact Eh|]. split; [exact Ef|].
  rewrite (proj1 (C67_round_trip m _ _ _ _ _ _ _ 0 St ltac:(lia)) (conj HM (conj HR HS))). fold W H. f_equal. f_equal. unfold u_picture. apply flat_ext.
  intros q I. apply in_zrange in I. destruct (G q I) as [_ E]. rewrite E. f_equal. unfold P. f_equal.
  rewrite (Z.mul_comm _ H), <- Z.div_mod by lia. rewrite Z.mul_comm, <- Z.div_mod by lia. reflexivity.
Qed.

(** An ETC2 texture with alpha of 16 x 8 texels with two faces and two levels. *)
Definition C67_palettes : u_palettes :=
  mkUPalettes 3 (fun i k => (5 * i + 3 * k + 1) mod 8) 2 (fun i k => (i + k * k) mod 4) 2 (fun i k => (100 * i + 77 * k + 9) mod 256) 4 (fun i k => (3 * i + k) mod 8).
Definition C67_cells (level g x y : Z) : u_cell :=
  mkUCell (fun p => (x + y + p) mod (2 + p)) (fun p => (level + g + x) mod 2) ((x + 2 * y + g) mod 3) ((x + y) mod 2).
Lemma C67_palettes_ok f : u_palettes_ok f C67_palettes.
Proof.
  unfold u_palettes_ok, C67_palettes. cbn [n_color_ends v_color_ends n_color_sels v_color_sels n_alpha_ends v_alpha_ends n_alpha_sels v_alpha_sels].
  do 4 (split; [lia|]). split; [|split; [|split]]; intros i k _ _; try (apply Z.mod_pos_bound; lia).
  pose proof (Z.mod_pos_bound (5 * i + 3 * k + 1) 8 ltac:(lia)). unfold component_size. destruct (is_etc f); [destruct (k =? 3)|destruct (is_green k)]; lia.
Qed.
Example C67_ex_storable : u_storable 12 16 8 2 2 C67_palettes C67_cells.
Proof.
  split; [lia|]. do 4 (split; [lia|]). split; [exact (C67_palettes_ok 12)|]. split.
  - intros level g x y _ _ _ _. unfold u_cell_ok. change (has_halves 12) with true. change (color_no 12) with 1. cbv iota. unfold C67_cells, C67_palettes. cbn [uc_end uc_sel uc_second uc_flip n_color_ends n_color_sels n_alpha_ends n_alpha_sels].
    pose proof (Z.mod_pos_bound (x + y + 0) 2 ltac:(lia)). pose proof (Z.mod_pos_bound (level + g + x) 2 ltac:(lia)). repeat split; try lia; try (apply Z.mod_pos_bound; lia).
  - pose proof (C67_size 12 16 8 2 2 C67_palettes C67_cells ltac:(lia) ltac:(lia) ltac:(lia) ltac:(lia) (C67_palettes_ok 12)) as S.
    change (zsum 2 _) with 244 in S. lia.
Qed.
Example C67_ex m : let data := u_store 12 16 8 2 2 C67_palettes C67_cells in
  unity_crunch_unpack_level m data (zlen data) 0 = Ok (12, u_picture 12 C67_palettes (C67_cells 0) 4 2 2) /\
  firstn 32 (u_picture 12 C67_palettes (C67_cells 0) 4 2 2) =
    [9; 86; 104; 137; 119; 104; 137; 119; 48; 2; 35; 232; 255; 255; 85; 85; 109; 186; 28; 120; 227; 170; 172; 113; 19; 48; 2; 157; 15; 15; 0; 0] /\
  forall r, unity_crunch_unpack_level m data (zlen data) 1 <> Ok r.
Proof.
  intros data. split; [|split].
  - pose proof (proj1 (C67_round_trip m 12 16 8 2 2 _ C67_cells 0 C67_ex_storable ltac:(lia)) (conj (or_intror eq_refl) (conj (or_intror eq_refl) eq_refl))) as R.
    change (level_cols 16 0) with 4 in R. change (level_cols 8 0) with 2 in R. exact R.
  - vm_compute. reflexivity.
  - apply (proj2 (C67_round_trip m 12 16 8 2 2 _ C67_cells 1 C67_ex_storable ltac:(lia))). change (level_cols 8 1) with 1. intros (_ & [N|N] & _); [lia|discriminate].
Qed.
(** The same palettes and cells in a DXT5 texture of odd size, decoded with
    wrapping arithmetic. *)
Example C67_ex_dxt5_storable : u_storable 2 9 5 1 1 C67_palettes C67_cells.
Proof.
  split; [lia|]. do 4 (split; [lia|]). split; [exact (C67_palettes_ok 2)|]. split.
  - intros level g x y _ _ _ _. unfold u_cell_ok. change (has_halves 2) with false. cbv iota. intros p Hp. change (zlen (pal_planes 2 C67_palettes)) with 2 in Hp.
    unfold C67_cells. cbn [uc_end uc_sel]. pose proof (Z.mod_pos_bound (level + g + x) 2 ltac:(lia)).
    assert (p = 0 \/ p = 1) as [-> | ->] by lia.
    + change (pl_ends (plane_at (pal_planes 2 C67_palettes) 0)) with 2. change (pl_sels (plane_at (pal_planes 2 C67_palettes) 0)) with 4. split; [apply Z.mod_pos_bound; lia|lia].
    + change (pl_ends (plane_at (pal_planes 2 C67_palettes) 1)) with 3. change (pl_sels (plane_at (pal_planes 2 C67_palettes) 1)) with 2. split; [apply Z.mod_pos_bound; lia|lia].
  - pose proof (C67_size 2 9 5 1 1 C67_palettes C67_cells ltac:(lia) ltac:(lia) ltac:(lia) ltac:(lia) (C67_palettes_ok 2)) as S.
    change (zsum 1 _) with 82 in S. lia.
Qed.
Example C67_decode_ex : exists image', decode_unity_crunch Wrapping (u_store 2 9 5 1 1 C67_palettes C67_cells) 9 5 (repeat 7 50) = Ok (Done, image') /\
  zlen image' = 50 /\ znth image' (4 * 9 + 5) = 1174405120 /\ znth image' 47 = 7.
Proof.
  destruct (C67_decode Wrapping 2 9 5 1 1 C67_palettes C67_cells (repeat 7 50) C67_ex_dxt5_storable ltac:(vm_compute; congruence) ltac:(vm_compute; congruence) (or_introl eq_refl) (or_introl eq_refl) eq_refl)
    as (raw & tex & image' & T & E & L & X & O).
  exists image'. split; [exact E|]. split; [exact L|]. split.
  - rewrite (X 5 4) by lia. injection T as <- <-. vm_compute. reflexivity.
  - rewrite (O 47) by (change (zlen (repeat 7 50)) with 50; lia). reflexivity.
Qed.
(** The blocks of [C67_any_blocks]: an ETC2 texture of 1000 x 600 texels. *)
Example C67_any_ex m : exists data, bytes data /\ number data 12 2 = 1000 /\ number data 14 2 = 600 /\
  unity_crunch_unpack_level m data (zlen data) 0 = Ok (12, flat_map (fun q => u_draw 12 C67_palettes (C67_cells 3 1 q (q * q))) (zrange 0 37500)).
Proof.
  destruct (C67_any_blocks m 12 1000 600 1 C67_palettes (fun q => u_draw 12 C67_palettes (C67_cells 3 1 q (q * q)))) as (data & B & _ & Ew & Eh & _ & E); try lia.
  - exact (C67_palettes_ok 12).
  - intros q _. apply (C67_drawable 12 C67_palettes _ (C67_palettes_ok 12)). exists (C67_cells 3 1 q (q * q)). split; [|reflexivity].
    unfold u_cell_ok. change (has_halves 12) with true. change (color_no 12) with 1. cbv iota. unfold C67_cells, C67_palettes. cbn [uc_end uc_sel uc_second uc_flip n_color_ends n_color_sels n_alpha_ends n_alpha_sels].
    pose proof (Z.mod_pos_bound (3 + 1 + q) 2 ltac:(lia)). repeat split; try lia; try (apply Z.mod_pos_bound; lia).
  - right. reflexivity.
  - reflexivity.
  - change (level_cols 600 0) with 150. change (level_cols 1000 0) with 250. lia.
  - exists data. split; [exact B|]. split; [exact Ew|]. split; [exact Eh|]. exact E.
Qed.
Print Assumptions C67_store_written.
Print Assumptions C67_round_trip.
Print Assumptions C67_decode.
Print Assumptions C67_size.
Print Assumptions C67_drawable.
Print Assumptions C67_any_blocks.
