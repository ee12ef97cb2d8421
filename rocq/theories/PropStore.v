(** * C66: what crunch files can show, every picture that fits its palettes *)
From Verif Require Import Base BaseLemmas ModelColor ModelCrn ModelCrunch SpecImage SpecCrn SpecCrnHeader SpecCrnLevel SpecCrnFile SpecCrnSound SpecCrnStore SpecCrnTexel
  ProofCrnHeader ProofCrnGrid ProofCrnLevel ProofCrnFile ProofCrnExample ProofCrnStore ProofCrnStoreFile ProofCrnStoreWhole PropCrunch PropSound.

(** A stored file is a file of the format: the header, the codes, the palettes
    and every level. *)
Theorem C66_store_written f w h faces levels ce cs ae al P : storable f w h faces levels ce cs ae al P ->
  let data := store f w h faces levels ce cs ae al P in
  let k := stored_contents ce cs ae al in
  let planes := planes_of f ce cs ae al in
  written data k /\ file_planes data k = planes /\
  number data 12 2 = w /\ number data 14 2 = h /\ number data 17 1 = faces /\ number data 18 1 = f /\ levels_of data = levels /\
  forall level, 0 <= level < levels ->
    level_written data k level (stored_level planes (P level) (level_cols w level) (level_cols h level)).
Proof.
  intros St data k planes. split; [exact (store_written f w h faces levels ce cs ae al P St)|]. pose proof (stored_planes f w h faces levels ce cs ae al P St) as EP. fold data k planes in EP.
  split; [exact EP|].
  pose proof (f_w f w h faces levels ce cs ae al P St) as Ew. pose proof (f_h f w h faces levels ce cs ae al P St) as Eh. pose proof (f_faces f w h faces levels ce cs ae al P St) as Ef.
  pose proof (f_format f w h faces levels ce cs ae al P St) as Em. pose proof (f_levels f w h faces levels ce cs ae al P St) as El. fold data in Ew, Eh, Ef, Em, El.
  split; [exact Ew|]. split; [exact Eh|]. split; [exact Ef|]. split; [exact Em|]. split; [exact El|].
  intros level Hl. destruct (level_facts f w h faces levels ce cs ae al P St level Hl) as (HW & HH & HF & Fit).
  destruct (store_stop f w h faces levels ce cs ae al P St level Hl) as [ES ET]. pose proof (level_section f w h faces levels ce cs ae al P St level Hl) as SEC. fold data in ES, ET, SEC.
  pose proof (store_facts f w h faces levels ce cs ae al P St) as (NP & _ & _ & _ & HL & _).
  unfold level_written. rewrite EP, Ew, Eh, Ef, El, ES, ET. cbv zeta.
  split; [lia|]. split; [lia|].
  assert (o_level f w h faces levels ce cs ae al P (level + 1) = o_level f w h faces levels ce cs ae al P level + zlen (store_level f w h faces ce cs ae al P level)) as EO by (unfold o_level; rewrite zsum_succ by lia; lia).
  pose proof (level_len f w h faces ce cs ae al P level).
  split; [lia|]. split.
  { pose proof (data_len f w h faces levels ce cs ae al P St) as DL. fold data in DL. rewrite DL. unfold o_level.
    pose proof (zsum_mono (fun i => zlen (store_level f w h faces ce cs ae al P i)) (level + 1) levels ltac:(intros; unfold zlen; lia) ltac:(lia)). lia. }
  split; [exact HF|]. split; [exact NP|]. split; [exact (stored_sensible planes (P level) _ _ _ HW HH HF Fit)|]. split.
  - intros kv I. cbn [k_sizes k stored_contents]. apply plain_coded.
    apply (stored_symbols planes (P level) _ _ _ HW HH HF Fit kv); [|exact I]. intros p Hp. destruct (used_planes f w h faces levels ce cs ae al P St p Hp) as [U1 U2]. split; [exact (proj2 U1)|exact (proj2 U2)].
  - rewrite SEC. unfold store_level. cbv zeta. unfold store_planes. fold planes.
    destruct (pack_ok (symbol_bits (fun _ : kind => plain_sizes) (level_symbols planes (stored_level planes (P level) (level_cols w level) (level_cols h level)) (level_cols w level) (level_cols h level) faces))) as (_ & _ & rest & E & _).
    exists rest. exact E.
Qed.

(** Every level of a stored file is unpacked to the picture that was stored.
    The two conditions are necessary: see C41. *)
Theorem C66_round_trip m f w h faces levels ce cs ae al P level : storable f w h faces levels ce cs ae al P -> 0 <= level < levels ->
  let data := store f w h faces levels ce cs ae al P in
  let W := level_cols w level in let H := level_cols h level in
  (faces = 1 \/ H mod 2 = 0) /\ level_end m f W H faces < 2 ^ 31 <->
  crunch_unpack_level m data (zlen data) level = Ok (f, chunk_picture (planes_of f ce cs ae al) (P level) W H faces).
Proof.
  intros St Hl data W H. destruct (C66_store_written f w h faces levels ce cs ae al P St) as (HWr & EP & Ew & Eh & Ef & Em & _ & HLv).
  fold data in HWr, EP, Ew, Eh, Ef, Em, HLv. specialize (HLv level Hl).
  pose proof (C41_level_code m data _ level _ HWr HLv) as [A B]. unfold unpackable in A, B. rewrite Ew, Eh, Ef, Em in A, B. fold W H in A, B.
  split.
  - intros U. rewrite (A U). unfold blocks_of_level. rewrite EP, Ew, Eh, Ef. fold W H.
    destruct (level_facts f w h faces levels ce cs ae al P St level Hl) as (HW & HH & HF & Fit). fold W H in HW, HH, Fit |- *.
    rewrite (stored_picture (planes_of f ce cs ae al) (P level) W H faces HW HH Fit). reflexivity.
  - intros E. destruct (Z.eq_dec faces 1) as [F1|F1]; [|destruct (Z.eq_dec (H mod 2) 0) as [F2|F2]].
    + destruct (Z.lt_ge_cases (level_end m f W H faces) (2 ^ 31)) as [G|G]; [split; [left; exact F1|exact G]|]. exfalso. refine (B _ _ E). intros [_ N]. lia.
    + destruct (Z.lt_ge_cases (level_end m f W H faces) (2 ^ 31)) as [G|G]; [split; [right; exact F2|exact G]|]. exfalso. refine (B _ _ E). intros [_ N]. lia.
    + exfalso. refine (B _ _ E). intros [[N|N] _]; contradiction.
Qed.

(** Decoding a stored file of one level gives the texels of the blocks drawn. *)
Theorem C66_decode m f w h faces levels ce cs ae al P image : storable f w h faces levels ce cs ae al P ->
  let data := store f w h faces levels ce cs ae al P in
  let W := level_cols w 0 in let H := level_cols h 0 in
  w * h <= zlen image -> 4 * zlen image < 2 ^ 63 -> faces = 1 \/ H mod 2 = 0 -> level_end m f W H faces < 2 ^ 31 ->
  exists raw tex image', crunch_texels f = Some (raw, tex) /\
    decode_crunch m data w h image = Ok (Done, image') /\ zlen image' = zlen image /\
    (forall x y, 0 <= x < w -> 0 <= y < h -> znth image' (y * w + x) =
       tex (drawn (planes_of f ce cs ae al) (P 0 0 (x / 8) (y / 8)) (x / 4 mod 2 + 2 * (y / 4 mod 2))) (y mod 4 * 4 + x mod 4)) /\
    (forall j, w * h <= j < zlen image -> znth image' j = znth image j).
Proof.
  intros St data W H Hi Hi2 HF HS. destruct (C66_store_written f w h faces levels ce cs ae al P St) as (HWr & EP & Ew & Eh & Ef & Em & _ & HLv).
  fold data in HWr, EP, Ew, Eh, Ef, Em, HLv. pose proof (store_facts f w h faces levels ce cs ae al P St) as (_ & Rw & Rh & _ & HL & _). specialize (HLv 0 ltac:(lia)).
  assert (zlen data < 2 ^ 32) as LD by apply St.
  pose proof (C56_crunch_file_partial m data _ _ image HWr HLv LD) as C. cbv zeta in C. rewrite Ew, Eh, Ef, Em in C. fold W H in C.
  destruct (C ltac:(lia) ltac:(lia) Hi Hi2 HF HS) as (raw & tex & image' & T & E & L & X & O). clear C.
  exists raw, tex, image'. split; [exact T|]. split; [exact E|]. split; [exact L|]. split; [|exact O].
  intros x y Hx Hy. rewrite (X x y Hx Hy), EP. f_equal.
  destruct (level_facts f w h faces levels ce cs ae al P St 0 ltac:(lia)) as (HW & HH & HF1 & Fit). fold W H in HW, HH, Fit |- *.
  assert (forall n a, 1 <= n -> 0 <= a < n -> 0 <= a / 4 < level_cols n 0) as B.
  { intros n a Hn Ha. unfold level_cols, level_size. change (2 ^ 0) with 1. rewrite Z.div_1_r, Z.max_r by lia. split; [apply Z.div_pos; lia|].
    pose proof (Z.div_mod a 4 ltac:(lia)). pose proof (Z.mod_pos_bound a 4 ltac:(lia)). pose proof (Z.div_mod (n + 3) 4 ltac:(lia)). pose proof (Z.mod_pos_bound (n + 3) 4 ltac:(lia)). lia. }
  pose proof (half_range (x / 4) W (B w x ltac:(lia) Hx)) as X2. pose proof (half_range (y / 4) H (B h y ltac:(lia) Hy)) as Y2.
  pose proof (Z.mod_pos_bound (x / 4) 2 ltac:(lia)). pose proof (Z.mod_pos_bound (y / 4) 2 ltac:(lia)).
  unfold level_block. rewrite stored_block; rewrite ?chunk_at_no by assumption.
  - rewrite !Z.div_div by lia. reflexivity.
  - unfold chunk_no. fold (chunk_cols W) in X2. assert (0 <= (0 * chunk_rows H + y / 4 / 2) * chunk_cols W) by (apply Z.mul_nonneg_nonneg; lia). destruct (Z.odd (y / 4 / 2)); lia.
  - lia.
  - apply Fit; [lia|exact X2|exact Y2].
Qed.

(** The size of the file: at most 28 bytes per chunk, and less than 600 kB
    besides. *)
Theorem C66_size f w h faces levels ce cs ae al P : 0 <= levels <= 16 -> 0 <= w -> 0 <= h -> 0 <= faces ->
  zlen ce <= 8192 -> zlen cs <= 8192 -> zlen ae <= 8192 -> zlen al <= 3 * 8192 ->
  zlen (store f w h faces levels ce cs ae al P) <= 600000 + zsum levels (fun level => 28 * num_chunks (level_cols w level) (level_cols h level) faces + 2).
Proof. exact (store_size f w h faces levels ce cs ae al P). Qed.

(** Any blocks at all, as long as they use at most 8192 different end points and
    8192 different selectors per palette. *)
Theorem C66_any_blocks m f w h faces ce cs ae al e s :
  let W := level_cols w 0 in let H := level_cols h 0 in let planes := planes_of f ce cs ae al in
  planes <> [] -> 1 <= w < 2 ^ 16 -> 1 <= h < 2 ^ 16 -> 1 <= faces < 2 ^ 8 -> palettes_ok ce cs ae al ->
  (forall p q, 0 <= p < zlen planes -> 0 <= q < faces * H * W -> 0 <= e p q < pl_ends (plane_at planes p) /\ 0 <= s p q < pl_sels (plane_at planes p)) ->
  faces = 1 \/ H mod 2 = 0 -> level_end m f W H faces < 2 ^ 31 ->
  exists data, bytes data /\ zlen data < 2 ^ 32 /\ number data 12 2 = w /\ number data 14 2 = h /\ number data 17 1 = faces /\
    crunch_unpack_level m data (zlen data) 0 =
      Ok (f, flat_map (fun q => flat_map (fun p => pl_block (plane_at planes p) (e p q) (s p q)) (plane_nos planes)) (zrange 0 (faces * H * W))).
Proof.
  intros W H planes NP Hw Hh HF HP HE Hf HL.
  destruct (level_cols_eq w 0 ltac:(lia) ltac:(lia)) as [_ HW]. destruct (level_cols_eq h 0 ltac:(lia) ltac:(lia)) as [_ HH].
  pose proof (level_cols_le w 0 ltac:(lia) ltac:(lia)) as HW2. pose proof (level_cols_le h 0 ltac:(lia) ltac:(lia)) as HH2. fold W in HW, HW2. fold H in HH, HH2.
  assert (1 <= faces * H * W) as HN by (apply (Z.mul_le_mono_nonneg 1 (faces * H) 1 W); nia).
  pose (P := fun level : Z => block_chunks e s W H).
  assert (all_fit planes (P 0) W H faces) as Fit.
  { intros a x y Ha Hx Hy. unfold P, block_chunks. cbv zeta. split; [cbn [ch_cut]; lia|]. cbn [ch_cut ch_end ch_sel]. change (num_tiles 7) with 4. intros p Hp.
    assert (forall k, 0 <= k < 4 -> 0 <= (if (2 * x + k mod 2 <? W) && (2 * y + k / 2 <? H) then e p ((a * H + (2 * y + k / 2)) * W + (2 * x + k mod 2)) else 0) < pl_ends (plane_at planes p) /\
                                    0 <= (if (2 * x + k mod 2 <? W) && (2 * y + k / 2 <? H) then s p ((a * H + (2 * y + k / 2)) * W + (2 * x + k mod 2)) else 0) < pl_sels (plane_at planes p)) as A.
    { intros k Hk. destruct (HE p 0 Hp ltac:(lia)) as [E0 S0]. destruct ((2 * x + k mod 2 <? W) && (2 * y + k / 2 <? H)) eqn:I; [|lia]. apply andb_prop in I. destruct I as [I1 I2]. apply Z.ltb_lt in I1, I2.
      pose proof (Z.mod_pos_bound k 2 ltac:(lia)). pose proof (Z.div_pos k 2 ltac:(lia) ltac:(lia)). set (bx := 2 * x + k mod 2) in *. set (b := 2 * y + k / 2) in *.
      apply HE; [exact Hp|]. split; [apply Z.add_nonneg_nonneg; [apply Z.mul_nonneg_nonneg; [apply Z.add_nonneg_nonneg; [apply Z.mul_nonneg_nonneg; lia|lia]|lia]|lia]|].
      assert (a * H + b + 1 <= faces * H) as G by (assert ((a + 1) * H <= faces * H) by (apply Z.mul_le_mono_nonneg_r; lia); lia).
      assert ((a * H + b + 1) * W <= faces * H * W) by (apply Z.mul_le_mono_nonneg_r; lia). lia. }
    split; intros k Hk; apply A; exact Hk. }
  assert (zlen (store f w h faces 1 ce cs ae al P) < 2 ^ 32) as Hsz.
  { destruct HP as ((P1 & _) & (P2 & _) & (P3 & _) & (P4 & _)).
    pose proof (C66_size f w h faces 1 ce cs ae al P ltac:(lia) ltac:(lia) ltac:(lia) ltac:(lia) P1 P2 P3 P4) as S.
    change 1 with (0 + 1) in S at 2. rewrite zsum_succ, zsum_0 in S by lia. cbv beta in S. fold W H in S. unfold num_chunks in S.
    unfold level_end, last_chunk in HL. set (cc := chunk_cols W) in *. set (cr := chunk_rows H) in *.
    assert (1 <= cc /\ cc <= W) as [C1 C2]. { unfold cc, chunk_cols. split; [apply Z.div_le_lower_bound; lia|apply Z.div_le_upper_bound; lia]. }
    assert (1 <= cr) as C3. { unfold cr, chunk_rows. apply Z.div_le_lower_bound; lia. }
    set (B := block_size_of f) in *. assert (8 <= B) as HB by (unfold B, block_size_of; destruct ((f =? 0) || (f =? 9)); lia).
    assert (-1 <= loop_reach m H B) as LR by (unfold loop_reach; destruct m; destruct (Z.odd (chunk_rows H)); lia).
    assert (0 <= W * B) as WB by (apply Z.mul_nonneg_nonneg; lia).
    assert (-1 <= block_reach m W H B) as BR by (unfold block_reach; destruct m; [lia|]; destruct (Z.odd H); lia).
    assert (-1 <= (if f =? 0 then loop_reach m H B else block_reach m W H B)) as R by (destruct (f =? 0); assumption).
    assert (0 <= 2 * (cc - 1) * B) as G1 by (apply Z.mul_nonneg_nonneg; lia).
    assert (1 <= faces * cr) as G2 by (apply (Z.mul_le_mono_nonneg 1 faces 1 cr); lia).
    assert ((faces * cr - 1) * W * 16 <= (faces * (2 * cr) - 2) * (W * B)) as G3.
    { replace ((faces * (2 * cr) - 2) * (W * B)) with ((faces * cr - 1) * W * (2 * B)) by ring. apply Z.mul_le_mono_nonneg_l; [apply Z.mul_nonneg_nonneg; lia|lia]. }
    assert (faces * cr * cc <= (faces * cr - 1) * W + W) as G4. { replace ((faces * cr - 1) * W + W) with (faces * cr * W) by ring. apply Z.mul_le_mono_nonneg_l; lia. }
    lia. }
  assert (storable f w h faces 1 ce cs ae al P) as St.
  { split; [exact NP|]. split; [exact Hw|]. split; [exact Hh|]. split; [exact HF|]. split; [lia|]. split; [exact HP|]. split; [|exact Hsz].
    intros level Hl. replace level with 0 by lia. exact Fit. }
  exists (store f w h faces 1 ce cs ae al P). destruct (C66_store_written _ _ _ _ _ _ _ _ _ _ St) as (HWr & _ & Ew & Eh & Ef & _).
  split; [exact (proj1 HWr)|]. split; [exact Hsz|]. split; [exact Ew|]. split; [exact Eh|]. split; [exact Ef|].
  rewrite (proj1 (C66_round_trip m _ _ _ _ _ _ _ _ _ _ 0 St ltac:(lia)) (conj Hf HL)). f_equal. f_equal. unfold chunk_picture. fold W H planes. rewrite !flat_map_concat_map. f_equal. apply map_ext_in.
  intros q I. apply in_zrange in I. cbv zeta. set (x := q mod W). set (y := (q / W) mod H).
  assert (0 <= x < W) as Hx by (apply Z.mod_pos_bound; lia). assert (0 <= y < H) as Hy by (apply Z.mod_pos_bound; lia).
  pose proof (Z.mod_pos_bound x 2 ltac:(lia)) as X2. pose proof (Z.mod_pos_bound y 2 ltac:(lia)) as Y2.
  unfold drawn. apply flat_map_ext. intros p. unfold P, block_chunks. cbv zeta. cbn [ch_cut ch_end ch_sel].
  set (k := x mod 2 + 2 * (y mod 2)).
  assert (tile_of 7 k = k) as ->. { destruct (four_values k ltac:(unfold k; lia)) as [K|[K|[K|K]]]; rewrite K; reflexivity. }
  assert (k mod 2 = x mod 2) as K1. { unfold k. rewrite Z.mul_comm, Z.mod_add by lia. apply Z.mod_small. exact X2. }
  assert (k / 2 = y mod 2) as K2. { unfold k. rewrite (Z.mul_comm 2), Z.div_add by lia. rewrite Z.div_small by exact X2. lia. }
  rewrite K1, K2. rewrite <- (Z.div_mod x 2), <- (Z.div_mod y 2) by lia.
  destruct (Z.ltb_spec x W); [|lia]. destruct (Z.ltb_spec y H); [|lia]. cbn [andb].
  replace ((q / W / H * H + y) * W + x) with q; [reflexivity|]. unfold x, y. rewrite (Z.mul_comm _ H), <- Z.div_mod by lia. rewrite Z.mul_comm, <- Z.div_mod by lia. reflexivity.
Qed.

(** A DXT5 texture of 9 x 5 texels with two levels, cut and coloured irregularly. *)
Definition C66_ce : list Z := [4294965248; 2164195328; 305419896].
Definition C66_cs : list Z := [1431655765; 2863311530].
Definition C66_ae : list Z := [65280; 4660].
Definition C66_al : list Z := [1; 22136; 39612; 65535; 0; 43981].
Definition C66_picture (level f x y : Z) : chunk :=
  mkChunk ((level + 3 * x + 6 * y + 5) mod 8) (fun p t => (x + t + p) mod 2) (fun p k => (y + k + x * p) mod 2).
Example C66_ex_storable : storable 2 9 5 1 2 C66_ce C66_cs C66_ae C66_al C66_picture.
Proof.
  split; [discriminate|]. do 4 (split; [lia|]).
  assert (palettes_ok C66_ce C66_cs C66_ae C66_al) as PO .
  { unfold palettes_ok, C66_ce, C66_cs, C66_ae, C66_al. cbn [zlen]. split; [split; [vm_compute; congruence|]|split; [split; [vm_compute; congruence|]|split; [split; [vm_compute; congruence|]|split; [vm_compute; congruence|split; [reflexivity|]]]]]; repeat (apply Forall_cons; [lia|]); apply Forall_nil. }
  split; [exact PO|]. split.
  - intros level _ f x y _ _ _. split; [apply Z.mod_pos_bound; lia|]. intros p Hp. change (zlen (planes_of 2 C66_ce C66_cs C66_ae C66_al)) with 2 in Hp.
    assert (p = 0 \/ p = 1) as [-> | ->] by lia; (split; intros k _; cbn [C66_picture ch_end ch_sel]).
    + change (pl_ends (plane_at (planes_of 2 C66_ce C66_cs C66_ae C66_al) 0)) with 2. apply Z.mod_pos_bound. lia.
    + change (pl_sels (plane_at (planes_of 2 C66_ce C66_cs C66_ae C66_al) 0)) with 2. apply Z.mod_pos_bound. lia.
    + change (pl_ends (plane_at (planes_of 2 C66_ce C66_cs C66_ae C66_al) 1)) with 3. pose proof (Z.mod_pos_bound (x + k + 1) 2 ltac:(lia)). lia.
    + change (pl_sels (plane_at (planes_of 2 C66_ce C66_cs C66_ae C66_al) 1)) with 2. apply Z.mod_pos_bound. lia.
  - pose proof (C66_size 2 9 5 1 2 C66_ce C66_cs C66_ae C66_al C66_picture ltac:(lia) ltac:(lia) ltac:(lia) ltac:(lia) ltac:(vm_compute; congruence) ltac:(vm_compute; congruence) ltac:(vm_compute; congruence) ltac:(vm_compute; congruence)) as S.
    change (zsum 2 _) with 88 in S. lia.
Qed.
Example C66_ex m : let data := store 2 9 5 1 2 C66_ce C66_cs C66_ae C66_al C66_picture in
  crunch_unpack_level m data (zlen data) 0 = Ok (2,
    chunk_picture (planes_of 2 C66_ce C66_cs C66_ae C66_al) (C66_picture 0) 3 2 1) /\
  firstn 32 (chunk_picture (planes_of 2 C66_ce C66_cs C66_ae C66_al) (C66_picture 0) 3 2 1) =
    [0; 255; 1; 0; 120; 86; 188; 154; 0; 0; 255; 128; 85; 85; 85; 85; 52; 18; 255; 255; 0; 0; 205; 171; 0; 248; 255; 255; 170; 170; 170; 170] /\
  crunch_unpack_level m data (zlen data) 1 = Ok (2,
    chunk_picture (planes_of 2 C66_ce C66_cs C66_ae C66_al) (C66_picture 1) 1 1 1).
Proof.
  intros data. split; [|split].
  - assert (level_end m 2 (level_cols 9 0) (level_cols 5 0) 1 < 2 ^ 31) as L by (destruct m; vm_compute; reflexivity).
    pose proof (proj1 (C66_round_trip m 2 9 5 1 2 _ _ _ _ C66_picture 0 C66_ex_storable ltac:(lia)) (conj (or_introl eq_refl) L)) as R.
    change (level_cols 9 0) with 3 in R. change (level_cols 5 0) with 2 in R. exact R.
  - vm_compute. reflexivity.
  - assert (level_end m 2 (level_cols 9 1) (level_cols 5 1) 1 < 2 ^ 31) as L by (destruct m; vm_compute; reflexivity).
    pose proof (proj1 (C66_round_trip m 2 9 5 1 2 _ _ _ _ C66_picture 1 C66_ex_storable ltac:(lia)) (conj (or_introl eq_refl) L)) as R.
    change (level_cols 9 1) with 1 in R. change (level_cols 5 1) with 1 in R. exact R.
Qed.
(** The hypotheses of [C66_decode] and [C66_size] for the same texture. *)
Example C66_decode_ex m : 9 * 5 <= zlen (repeat 7 50) /\ 4 * zlen (repeat 7 50) < 2 ^ 63 /\ level_end m 2 (level_cols 9 0) (level_cols 5 0) 1 < 2 ^ 31 /\
  zsum 2 (fun level => 28 * num_chunks (level_cols 9 level) (level_cols 5 level) 1 + 2) = 88.
Proof. destruct m; repeat split; vm_compute; congruence. Qed.
(** A DXT1 texture of 1000 x 600 texels, with 5000 end points and 3000 selectors. *)
Example C66_any_ex m : let ce := map (fun i => i * 77777) (zrange 0 5000) in let cs := map (fun i => i * 1234567) (zrange 0 3000) in
  exists data, bytes data /\ number data 12 2 = 1000 /\ number data 14 2 = 600 /\
    crunch_unpack_level m data (zlen data) 0 =
      Ok (0, flat_map (fun q => le 4 (q * 31 mod 5000 * 77777) ++ le 4 (q * 17 mod 3000 * 1234567)) (zrange 0 (150 * 250))).
Proof.
  intros ce cs. assert (zlen ce = 5000) as L1 by (unfold ce; fold (tab 5000 (fun i => i * 77777)); rewrite zlen_tab; reflexivity).
  assert (zlen cs = 3000) as L2 by (unfold cs; fold (tab 3000 (fun i => i * 1234567)); rewrite zlen_tab; reflexivity).
  destruct (C66_any_blocks m 0 1000 600 1 ce cs [] [] (fun _ q => q * 31 mod 5000) (fun _ q => q * 17 mod 3000)) as (data & B & _ & Ew & Eh & _ & E).
  - discriminate.
  - lia.
  - lia.
  - lia.
  - unfold palettes_ok. rewrite L1, L2. change (zlen (@nil Z)) with 0. split; [split; [lia|]|split; [split; [lia|]|split; [split; [lia|constructor]|split; [lia|split; [reflexivity|constructor]]]]].
    + apply Forall_forall. intros x I. apply in_map_iff in I. destruct I as (i & <- & I). apply in_zrange in I. lia.
    + apply Forall_forall. intros x I. apply in_map_iff in I. destruct I as (i & <- & I). apply in_zrange in I. lia.
  - intros p q Hp _. change (zlen (planes_of 0 ce cs [] [])) with 1 in Hp. replace p with 0 by lia.
    change (pl_ends (plane_at (planes_of 0 ce cs [] []) 0)) with (zlen ce). change (pl_sels (plane_at (planes_of 0 ce cs [] []) 0)) with (zlen cs). rewrite L1, L2. split; apply Z.mod_pos_bound; lia.
  - left. reflexivity.
  - destruct m; vm_compute; reflexivity.
  - exists data. split; [exact B|]. split; [exact Ew|]. split; [exact Eh|]. rewrite E. refine (f_equal (fun z => Ok (0, z)) _). change (1 * level_cols 600 0 * level_cols 1000 0) with (150 * 250).
    apply flat_map_ext. intros q. change (plane_nos (planes_of 0 ce cs [] [])) with [0]. cbn [flat_map]. rewrite app_nil_r.
    change (pl_block (plane_at (planes_of 0 ce cs [] []) 0)) with (fun a b => le 4 (znth ce a) ++ le 4 (znth cs b)). cbv beta. unfold ce, cs.
    fold (tab 5000 (fun i => i * 77777)). fold (tab 3000 (fun i => i * 1234567)). rewrite !znth_tab by (apply Z.mod_pos_bound; lia). reflexivity.
Qed.
Print Assumptions C66_store_written.
Print Assumptions C66_round_trip.
Print Assumptions C66_decode.
Print Assumptions C66_size.
Print Assumptions C66_any_blocks.
