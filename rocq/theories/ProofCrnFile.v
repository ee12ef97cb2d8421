(** * Proofs about whole crunch files: from the bytes of a level to its blocks. *)
From Verif Require Import Base BaseLemmas ModelCrn ModelCrunch SpecCrn SpecCrnHeader SpecCrnLevel SpecCrnFile
  ProofHuff ProofCrnBits ProofCrnRead ProofCrnHeader ProofCrnIndex ProofAstcRange ProofCrnGrid ProofCrnLevel.

(** ** Codes deliver their symbols *)
Lemma feeds_ok m u sizes rest : forall l c,
  (forall kv, In kv l -> code_lengths (sizes (fst kv)) /\ prepare_decoder_tables m (sizes (fst kv)) = Ok (dm_of u (fst kv)) /\ coded (sizes (fst kv)) (snd kv)) ->
  alive c (symbol_bits sizes l ++ rest) -> c_pos c < zlen (c_buf c) -> feeds m u c l.
Proof.
  induction l as [|kv l IH]; intros c HL A P; [exact I|]. cbn [feeds].
  destruct (HL kv (or_introl eq_refl)) as (H1 & H2 & H3).
  unfold symbol_bits in A. cbn [flat_map] in A. rewrite <- app_assoc in A.
  destruct (sym_alive m _ _ c (snd kv) _ H1 H3 H2 A ltac:(auto)) as (c' & Dc & A' & _ & _ & P').
  exists c'. split; [exact Dc|]. apply IH; auto. intros kv' I'. apply HL. right. exact I'.
Qed.

(** ** What is known about the palettes of any unpacker *)
Lemma number_range d o n : bytes d -> 0 <= n -> 0 <= number d o n < 256 ^ n.
Proof.
  intros Hb Hn. unfold number.
  assert (forall k j, 0 <= j -> j + Z.of_nat k = n ->
    0 <= fold_right (fun k a => znth d (o + k) * 256 ^ (n - 1 - k) + a) 0 (zrange j n) < 256 ^ (n - j)) as K.
  { induction k as [|k IH]; intros j Hj Ek.
    - rewrite zrange_nil by lia. cbn [fold_right]. replace (n - j) with 0 by lia. change (256 ^ 0) with 1. lia.
    - rewrite zrange_cons by lia. cbn [fold_right]. specialize (IH (j + 1) ltac:(lia) ltac:(lia)).
      pose proof (bytes_znth d (o + j) Hb) as B. replace (n - (j + 1)) with (n - 1 - j) in IH by lia.
      replace (n - j) with (Z.succ (n - 1 - j)) by lia. rewrite Z.pow_succ_r by lia.
      assert (0 < 256 ^ (n - 1 - j)) by (apply Z.pow_pos_nonneg; lia). nia. }
  specialize (K (Z.to_nat n) 0 ltac:(lia) ltac:(lia)). rewrite Z.sub_0_r in K. exact K.
Qed.

Definition sound (u : unpacker) : Prop :=
  zlen (u_color_endpoints u) < 65536 /\ zlen (u_color_selectors u) < 65536 /\
  zlen (u_alpha_endpoints u) < 65536 /\ words (u_alpha_endpoints u) /\
  0 <= p_num (h_alpha_selectors (u_header u)) < 65536 /\
  (u_alpha_selectors u = [] \/ zlen (u_alpha_selectors u) = 3 * p_num (h_alpha_selectors (u_header u))) /\
  words (u_alpha_selectors u).

Lemma words_snoc l v : words l -> words (l ++ [u16 v]).
Proof. intros H. apply Forall_app. split; [exact H|]. constructor; [|constructor]. apply Z.mod_pos_bound. lia. Qed.
Lemma words_nil : words [].
Proof. constructor. Qed.

Lemma color_endpoints_len m d h pal : 0 <= p_num (h_color_endpoints h) -> decode_color_endpoints m d h = Ok pal -> zlen pal = p_num (h_color_endpoints h).
Proof.
  intros Hn E. unfold decode_color_endpoints in E. inv3 E src E1. inv3 E c E2. inv3 E r1 E3. destruct r1 as [dm0 c1]. inv3 E r2 E4. destruct r2 as [dm1 c2].
  inv3 E st E5. destruct st as [[[[[[[a b] cc] dd] e] f] pal'] cd]. injection E as <-.
  enough (let '(_, pal, _) := (a, b, cc, dd, e, f, pal', cd) in zlen pal = p_num (h_color_endpoints h)) as K by exact K.
  revert E5. apply (for_range_ok_inv (fun i (st : Z * Z * Z * Z * Z * Z * list Z * codec) => let '(_, pal, _) := st in zlen pal = i)); [lia|reflexivity|].
  intros i [[[[[[[a' b'] c'] d'] e'] f'] pal] cd'] st' Hi L S. unfold color_endpoint_step in S.
  do 6 (let r := fresh "r" in let T := fresh "T" in inv3 S r T; destruct r as [? ?]).
  injection S as <-. rewrite zlen_app, L. reflexivity.
Qed.
Lemma color_selectors_len m d h pal : 0 <= p_num (h_color_selectors h) -> decode_color_selectors m d h = Ok pal -> zlen pal = p_num (h_color_selectors h).
Proof.
  intros Hn E. unfold decode_color_selectors in E. inv3 E src E1. inv3 E c E2. inv3 E r1 E3. destruct r1 as [dm0 c1]. inv3 E r2 E4. destruct r2 as [dm1 c2].
  inv3 E st E5. destruct st as [[cur pal'] cd]. injection E as <-.
  enough (let '(_, pal, _) := (cur, pal', cd) in zlen pal = p_num (h_color_selectors h)) as K by exact K.
  revert E5. apply (for_range_ok_inv (fun i (st : list Z * list Z * codec) => let '(_, pal, _) := st in zlen pal = i)); [lia|reflexivity|].
  intros i [[cur' pal] cd'] st' Hi L S. inv3 S r T. destruct r as [? ?]. inv3 S v T2. injection S as <-. rewrite zlen_app, L. reflexivity.
Qed.
Lemma alpha_endpoints_len m d h pal : 0 <= p_num (h_alpha_endpoints h) -> decode_alpha_endpoints m d h = Ok pal ->
  zlen pal = p_num (h_alpha_endpoints h) /\ words pal.
Proof.
  intros Hn E. unfold decode_alpha_endpoints in E. inv3 E src E1. inv3 E c E2. inv3 E r1 E3. destruct r1 as [dm0 c1].
  inv3 E st E5. destruct st as [[[a b] pal'] cd]. injection E as <-.
  enough (let '(_, pal, _) := (a, b, pal', cd) in zlen pal = p_num (h_alpha_endpoints h) /\ words pal) as K by exact K.
  revert E5. apply (for_range_ok_inv (fun i (st : Z * Z * list Z * codec) => let '(_, pal, _) := st in zlen pal = i /\ words pal)); [lia|split; [reflexivity|constructor]|].
  intros i [[[a' b'] pal] cd'] st' Hi [L V] S. inv3 S r T. destruct r as [? ?]. inv3 S r2 T2. destruct r2 as [? ?]. injection S as <-.
  split; [rewrite zlen_app, L; reflexivity|apply words_snoc, V].
Qed.
Lemma alpha_selectors_len m d h pal : 0 <= p_num (h_alpha_selectors h) -> decode_alpha_selectors m d h = Ok pal ->
  zlen pal = 3 * p_num (h_alpha_selectors h) /\ words pal.
Proof.
  intros Hn E. unfold decode_alpha_selectors in E. inv3 E src E1. inv3 E c E2. inv3 E r1 E3. destruct r1 as [dm0 c1]. inv3 E r2 E4. destruct r2 as [dm1 c2].
  inv3 E st E5. destruct st as [[cur pal'] cd]. injection E as <-.
  enough (let '(_, pal, _) := (cur, pal', cd) in zlen pal = 3 * p_num (h_alpha_selectors h) /\ words pal) as K by exact K.
  revert E5. apply (for_range_ok_inv (fun i (st : list Z * list Z * codec) => let '(_, pal, _) := st in zlen pal = 3 * i /\ words pal)); [lia|split; [reflexivity|constructor]|].
  intros i [[cur' pal] cd'] st' Hi [L V] S. inv3 S r T. destruct r as [? ?]. inv3 S v T2. injection S as <-.
  unfold pack_alpha_selector in T2. do 16 (let r := fresh "s" in let T := fresh "T" in inv3 T2 r T).
  assert (v = v) as _ by reflexivity. injection T2 as <-.
  split; [rewrite zlen_app, L; change (3 * i + 3 = 3 * (i + 1)); lia|].
  apply Forall_app. split; [exact V|]. repeat (constructor; [apply Z.mod_pos_bound; lia|]). constructor.
Qed.

Lemma header_nums d h : bytes d -> crnd_get_header d (zlen d) = Ok h ->
  h = header_at d /\ 74 <= zlen d /\ header_room d <= zlen d /\ well_formed d = true.
Proof.
  intros Hb. rewrite header_code by exact Hb. destruct (Z.ltb_spec (zlen d) 74); [discriminate|].
  destruct (Z.ltb_spec (zlen d) (header_room d)); [discriminate|]. destruct (well_formed d); [|discriminate].
  intros E. injection E as <-. auto.
Qed.

Lemma init_sound m d u : bytes d -> unpacker_init m d (zlen d) = Ok u ->
  u_data u = d /\ u_data_size u = zlen d /\ u_header u = header_at d /\ 74 <= zlen d /\ header_room d <= zlen d /\ well_formed d = true /\ sound u.
Proof.
  intros Hb E. unfold unpacker_init in E. inv3 E h E1. inv3 E t E2. destruct t as [[[[first e0] s0] e1] s1].
  inv3 E pc E3. destruct pc as [ce cs]. inv3 E pa E4. destruct pa as [ae al].
  assert (u = mkUnpacker d (zlen d) h first e0 e1 s0 s1 ce cs ae al) as -> by congruence. cbn [u_data u_data_size u_header].
  destruct (header_nums d h Hb E1) as (-> & H1 & H2 & H3).
  split; [reflexivity|]. split; [reflexivity|]. split; [reflexivity|]. split; [exact H1|]. split; [exact H2|]. split; [exact H3|].
  unfold sound. cbn [u_color_endpoints u_color_selectors u_alpha_endpoints u_alpha_selectors u_header].
  assert (forall o, 0 <= p_num (palette_at d o) < 65536) as R by (intros o; apply (number_range d (o + 6) 2 Hb); lia).
  pose proof (R 33) as R1. pose proof (R 41) as R2. pose proof (R 49) as R3. pose proof (R 57) as R4.
  change (palette_at d 33) with (h_color_endpoints (header_at d)) in R1. change (palette_at d 41) with (h_color_selectors (header_at d)) in R2.
  change (palette_at d 49) with (h_alpha_endpoints (header_at d)) in R3. change (palette_at d 57) with (h_alpha_selectors (header_at d)) in R4.
  assert (zlen ce < 65536 /\ zlen cs < 65536) as [L1 L2].
  { destruct (p_num (h_color_endpoints (header_at d)) =? 0); cbn [negb] in E3.
    - injection E3 as <- <-. cbn; lia.
    - inv3 E3 x X1. inv3 E3 y X2. injection E3 as <- <-.
      rewrite (color_endpoints_len m d _ _ (proj1 R1) X1), (color_selectors_len m d _ _ (proj1 R2) X2). lia. }
  split; [exact L1|]. split; [exact L2|].
  destruct (p_num (h_alpha_endpoints (header_at d)) =? 0); cbn [negb] in E4.
  - injection E4 as <- <-. split; [cbn; lia|]. split; [constructor|]. split; [exact R4|]. split; [left; reflexivity|constructor].
  - inv3 E4 x X1. inv3 E4 y X2. injection E4 as <- <-.
    destruct (alpha_endpoints_len m d _ _ (proj1 R3) X1) as [A1 A2]. destruct (alpha_selectors_len m d _ _ (proj1 R4) X2) as [B1 B2].
    split; [lia|]. split; [exact A2|]. split; [exact R4|]. split; [right; exact B1|exact B2].
Qed.

Lemma alpha_from_sensible u : sound u -> 0 < zlen (u_alpha_endpoints u) -> 0 < zlen (u_alpha_selectors u) / 3 -> alpha_ready u.
Proof.
  intros (_ & _ & L3 & V3 & R & L4 & V4) H1 H2. destruct L4 as [E|L4].
  - rewrite E in H2. vm_compute in H2. discriminate.
  - rewrite L4, Z.mul_comm, Z.div_mul in H2 by lia. split; [lia|]. split; [exact V3|]. split; [lia|]. split; [exact L4|exact V4].
Qed.

Lemma color_from_sensible u : sound u -> 0 < zlen (u_color_endpoints u) -> 0 < zlen (u_color_selectors u) -> color_ready u.
Proof. intros (L1 & L2 & _) H1 H2. split; lia. Qed.

(** ** A level of a file *)

Lemma level_cols_eq n level : 0 <= n -> 0 <= level -> Z.shiftr (Z.max (Z.shiftr n level) 1 + 3) 2 = level_cols n level /\ 1 <= level_cols n level.
Proof.
  intros Hn Hl. unfold level_cols, level_size. rewrite !shr_div by lia. rewrite (Z.max_comm _ 1). split; [reflexivity|].
  apply Z.div_le_lower_bound; lia.
Qed.
Lemma level_cols_le n level : 0 <= n < 2 ^ 16 -> 0 <= level -> level_cols n level <= 2 ^ 14.
Proof.
  intros Hn Hl. destruct (level_cols_eq n level ltac:(lia) ltac:(lia)) as [<- _]. rewrite (shr_div _ 2) by lia. change (2 ^ 2) with 4.
  rewrite shr_div by lia. assert (n / 2 ^ level <= n).
  { apply Z.div_le_upper_bound; [apply Z.pow_pos_nonneg; lia|]. assert (1 <= 2 ^ level) by (apply (Z.pow_le_mono_r 2 0 level); lia). nia. }
  apply Z.lt_succ_r. apply Z.div_lt_upper_bound; lia.
Qed.

Lemma level_source_ok u d level : u_data u = d -> u_data_size u = zlen d -> u_header u = header_at d ->
  0 <= level < levels_of d -> 0 <= level_start d level < level_stop d level -> level_stop d level <= zlen d ->
  level_source u level = Ok (skipn (Z.to_nat (level_start d level)) d, level_stop d level - level_start d level).
Proof.
  intros E1 E2 E3 Hl H1 H2. unfold level_source. rewrite E1, E2, E3. cbn [h_level_ofs h_levels header_at].
  assert (forall i, 0 <= i < levels_of d -> idx (map (fun i => number d (70 + 4 * i) 4) (zrange 0 (levels_of d))) i = Ok (number d (70 + 4 * i) 4)) as I.
  { intros i Hi. apply (idx_tab (levels_of d) (fun i => number d (70 + 4 * i) 4)). lia. }
  rewrite I by lia. cbn [bind]. unfold level_start, level_stop in *.
  destruct (Z.ltb_spec (level + 1) (levels_of d)).
  - rewrite I by lia. cbn [bind]. destruct (Z.leb_spec (number d (70 + 4 * (level + 1)) 4) (number d (70 + 4 * level) 4)); [lia|].
    rewrite slice_from_ok by lia. reflexivity.
  - cbn [bind]. destruct (Z.leb_spec (zlen d) (number d (70 + 4 * level) 4)); [lia|].
    rewrite slice_from_ok by lia. reflexivity.
Qed.

Lemma planes_split f ce cs ae al : planes_of f ce cs ae al <> [] ->
  f = 0 \/ 2 <= f <= 6 \/ f = 7 \/ f = 8 \/ f = 9.
Proof.
  unfold planes_of. destruct (Z.eqb_spec f 0); [lia|]. destruct (Z.leb_spec 2 f), (Z.leb_spec f 6); cbn [andb]; try lia;
  destruct (Z.eqb_spec f 7); try lia; destruct (Z.eqb_spec f 8); try lia; destruct (Z.eqb_spec f 9); try lia; cbn [orb]; congruence.
Qed.

(** What fits into an `i32` is small enough for everything else. *)
Lemma level_room m f W H faces : let B := block_size_of f in
  1 <= W <= 2 ^ 14 -> 1 <= H <= 2 ^ 14 -> 1 <= faces < 256 -> level_end m f W H faces < 2 ^ 31 ->
  W * B < 2 ^ 20 /\ last_chunk W H faces B <= 2 ^ 31 /\ last_chunk W H faces B + loop_reach m H B < 2 ^ 31 /\
  (f <> 0 -> last_chunk W H faces B + block_reach m W H B < 2 ^ 31) /\
  faces * (2 * chunk_rows H) * B < 2 ^ 28 /\ faces * H * W * B < 2 ^ 62 /\ 0 <= W * B * H < 2 ^ 32.
Proof.
  intros B HW HH HF HZ. assert (B = 8 \/ B = 16) as HB by (unfold B, block_size_of; destruct ((f =? 0) || (f =? 9)); auto).
  unfold level_end in HZ. fold B in HZ.
  assert (B <= W * B <= 2 ^ 14 * 16) as RP by (destruct HB as [-> | ->]; lia).
  assert (-1 <= loop_reach m H B) as R1 by (unfold loop_reach; destruct m, (Z.odd (chunk_rows H)); lia).
  assert (-1 <= block_reach m W H B) as R2 by (unfold block_reach, loop_reach; destruct m, (Z.odd H), (Z.odd (chunk_rows H)); lia).
  assert (loop_reach m H B <= block_reach m W H B) as R3.
  { unfold block_reach, loop_reach; destruct m, (Z.odd (chunk_rows H)), (Z.odd H); lia. }
  assert (last_chunk W H faces B <= 2 ^ 31) as RM by (destruct (f =? 0); lia).
  split; [lia|]. split; [exact RM|]. split; [destruct (f =? 0); lia|].
  split; [intros N; destruct (Z.eqb_spec f 0); [lia|exact HZ]|].
  assert (1 <= chunk_rows H /\ H <= 2 * chunk_rows H <= H + 1) as [RB1 RB2].
  { unfold chunk_rows. pose proof (Z.div_mod (H + 1) 2 ltac:(lia)). pose proof (Z.mod_pos_bound (H + 1) 2 ltac:(lia)). lia. }
  assert (0 <= chunk_cols W - 1) as CB.
  { unfold chunk_cols. pose proof (Z.div_mod (W + 1) 2 ltac:(lia)). pose proof (Z.mod_pos_bound (W + 1) 2 ltac:(lia)). lia. }
  assert (0 <= faces * (2 * chunk_rows H) <= 255 * 16385) as FR by (split; [|apply Z.mul_le_mono_nonneg]; lia).
  split. { destruct HB as [-> | ->]; lia. }
  split. { assert (0 <= faces * H <= 255 * 2 ^ 14) by (split; [|apply Z.mul_le_mono_nonneg]; lia).
    rewrite <- Z.mul_assoc. assert (faces * H * (W * B) <= 255 * 2 ^ 14 * (2 ^ 14 * 16)) by (apply Z.mul_le_mono_nonneg; lia). lia. }
  unfold last_chunk in RM. assert (1 * H <= faces * (2 * chunk_rows H)) as FH by (apply Z.mul_le_mono_nonneg; lia).
  assert (H * (W * B) <= faces * (2 * chunk_rows H) * (W * B)) by (apply Z.mul_le_mono_nonneg_r; lia).
  assert (0 <= (chunk_cols W - 1) * B) by (apply Z.mul_nonneg_nonneg; lia). assert (0 <= H * (W * B)) by (apply Z.mul_nonneg_nonneg; lia). lia.
Qed.

Section Level.
Context (m : build) (d : list Z) (u : unpacker) (level : Z) (D : symbols) (sizes : kind -> list Z) (rest : list bool).
Let f := number d 18 1.
Let faces := number d 17 1.
Let W := level_cols (number d 12 2) level.
Let H := level_cols (number d 14 2) level.
Let planes := planes_of f (u_color_endpoints u) (u_color_selectors u) (u_alpha_endpoints u) (u_alpha_selectors u).

Lemma level_2_ok c : sound u -> u_header u = header_at d -> bytes d -> 0 <= level -> 1 <= faces -> faces = 1 \/ H mod 2 = 0 ->
  level_end m f W H faces < 2 ^ 31 ->
  planes <> [] -> sensible planes D ->
  feeds m u c (level_symbols planes D W H faces) -> forall src size, start_decoding src size = Ok c ->
  unpack_level_2 m u src size (W * block_size_of f * H) (W * block_size_of f) level = Ok (level_blocks planes D W H faces).
Proof.
  intros S Eh Hb Hl HF HS HZ Hp Hs F src size St.
  pose proof (number_range d 12 2 Hb ltac:(lia)) as Nw. pose proof (number_range d 14 2 Hb ltac:(lia)) as Nh.
  destruct (level_cols_eq (number d 12 2) level ltac:(lia) Hl) as [E1 HW]. destruct (level_cols_eq (number d 14 2) level ltac:(lia) Hl) as [E2 HH].
  pose proof (level_cols_le (number d 12 2) level ltac:(lia) Hl) as HW2. pose proof (level_cols_le (number d 14 2) level ltac:(lia) Hl) as HH2.
  fold W in E1, HW, HW2. fold H in E2, HH, HH2. pose proof (number_range d 17 1 Hb ltac:(lia)) as [_ Nf]. change (256 ^ 1) with 256 in Nf. fold faces in Nf.
  unfold unpack_level_2. rewrite Eh. cbn [h_width h_height h_format h_faces header_at]. rewrite E1, E2. fold f faces.
  change FmtDxt1 with 0. change FmtDxt5a with 9. change FmtDxt5 with 2. change FmtDxt5CcxY with 3. change FmtDxt5XGxR with 4. change FmtDxt5XGbr with 5. change FmtDxt5Agbr with 6. change FmtDxnXy with 7. change FmtDxnYx with 8.
  fold (block_size_of f). set (B := block_size_of f) in *.
  assert (B = 8 \/ B = 16) as HB by (unfold B, block_size_of; destruct ((f =? 0) || (f =? 9)); auto).
  assert ((W * B =? 0) = false) as -> by (apply Z.eqb_neq; nia).
  assert ((W * B <? B * W) = false) as -> by (apply Z.ltb_ge; lia).
  assert (Z.land (W * B) 3 = 0) as ->. { change 3 with (Z.ones 2). rewrite Z.land_ones by lia. change (2 ^ 2) with 4. destruct HB as [->| ->]; dlia. }
  cbn [orb negb Z.eqb bind].
  destruct (level_room m f W H faces ltac:(split; [exact HW|exact HW2]) ltac:(split; [exact HH|exact HH2]) ltac:(split; [exact HF|exact Nf]) HZ) as (RP & RM & RL & RK & RF & RZ & Ht).
  fold B in RP, RM, RL, RK, RF, RZ, Ht.
  rewrite ua_ok by lia. cbn [bind]. rewrite Z.ltb_irrefl. rewrite St. cbn [or_err bind].
  rewrite (shr_div (W + 1) 1), (shr_div (H + 1) 1) by lia. change (2 ^ 1) with 2.
  change ((W + 1) / 2) with (chunk_cols W). change ((H + 1) / 2) with (chunk_rows H).
  set (ret := repeat 0 (Z.to_nat (W * B * H * faces))).
  assert (zlen ret = faces * H * W * B) as Lr. { unfold ret. unfold zlen. rewrite repeat_length, Z2Nat.id by nia. ring. }
  assert (h_faces (u_header u) = faces) as Ef by (rewrite Eh; reflexivity).
  destruct Hs as (HG & H1 & H2).
  destruct (planes_split _ _ _ _ _ Hp) as [E|[E|[E|[E|E]]]].
  - assert (B = 8) as EB by (unfold B, block_size_of; rewrite E; reflexivity). rewrite EB in *.
    assert (planes = [color_plane (u_color_endpoints u) (u_color_selectors u)]) as P by (unfold planes; rewrite E; reflexivity).
    rewrite P in *. rewrite E. cbn [Z.eqb]. apply unpack_dxt1_ok; auto.
    + apply color_from_sensible; auto; [specialize (H1 0 0 0 ltac:(vm_compute; split; congruence))|specialize (H2 0 0 0 ltac:(vm_compute; split; congruence))]; cbn in H1, H2; lia.
    + split; [exact HG|split; auto].
  - assert (B = 16) as EB. { unfold B, block_size_of. destruct (Z.eqb_spec f 0); [lia|]. destruct (Z.eqb_spec f 9); [lia|reflexivity]. } rewrite EB in *.
    assert (planes = [alpha_plane (u_alpha_endpoints u) (u_alpha_selectors u); color_plane (u_color_endpoints u) (u_color_selectors u)]) as P.
    { unfold planes, planes_of. destruct (Z.eqb_spec f 0); [lia|]. destruct (Z.leb_spec 2 f); [|lia]. destruct (Z.leb_spec f 6); [|lia]. reflexivity. }
    rewrite P in *. destruct (Z.eqb_spec f 0); [lia|].
    assert ((f =? 2) || (f =? 3) || (f =? 5) || (f =? 6) || (f =? 4) = true) as ->.
    { destruct (Z.eqb_spec f 2), (Z.eqb_spec f 3), (Z.eqb_spec f 4), (Z.eqb_spec f 5), (Z.eqb_spec f 6); try reflexivity; lia. }
    specialize (RK ltac:(lia)). apply unpack_dxt5_ok; auto.
    + pose proof (H1 0 0 0 ltac:(vm_compute; split; congruence)) as K1. pose proof (H2 0 0 0 ltac:(vm_compute; split; congruence)) as K2.
      apply alpha_from_sensible; auto; cbn [plane_at nth Z.to_nat alpha_plane pl_ends pl_sels] in K1, K2; lia.
    + pose proof (H1 1 0 0 ltac:(vm_compute; split; congruence)) as K1. pose proof (H2 1 0 0 ltac:(vm_compute; split; congruence)) as K2.
      unfold plane_at in K1, K2. change (Z.to_nat 1) with 1%nat in K1, K2. cbn [nth color_plane pl_ends pl_sels] in K1, K2. apply color_from_sensible; auto; lia.
    + split; [exact HG|split; auto].
  - assert (B = 16) as EB by (unfold B, block_size_of; rewrite E; reflexivity). rewrite EB in *.
    assert (planes = [alpha_plane (u_alpha_endpoints u) (u_alpha_selectors u); alpha_plane (u_alpha_endpoints u) (u_alpha_selectors u)]) as P by (unfold planes; rewrite E; reflexivity).
    rewrite P in *. rewrite E. cbn [Z.eqb Pos.eqb orb]. specialize (RK ltac:(lia)). apply unpack_dxn_ok; auto.
    + pose proof (H1 0 0 0 ltac:(vm_compute; split; congruence)) as K1. pose proof (H2 0 0 0 ltac:(vm_compute; split; congruence)) as K2.
      apply alpha_from_sensible; auto; cbn [plane_at nth Z.to_nat alpha_plane pl_ends pl_sels] in K1, K2; lia.
    + split; [exact HG|split; auto].
  - assert (B = 16) as EB by (unfold B, block_size_of; rewrite E; reflexivity). rewrite EB in *.
    assert (planes = [alpha_plane (u_alpha_endpoints u) (u_alpha_selectors u); alpha_plane (u_alpha_endpoints u) (u_alpha_selectors u)]) as P by (unfold planes; rewrite E; reflexivity).
    rewrite P in *. rewrite E. cbn [Z.eqb Pos.eqb orb]. specialize (RK ltac:(lia)). apply unpack_dxn_ok; auto.
    + pose proof (H1 0 0 0 ltac:(vm_compute; split; congruence)) as K1. pose proof (H2 0 0 0 ltac:(vm_compute; split; congruence)) as K2.
      apply alpha_from_sensible; auto; cbn [plane_at nth Z.to_nat alpha_plane pl_ends pl_sels] in K1, K2; lia.
    + split; [exact HG|split; auto].
  - assert (B = 8) as EB by (unfold B, block_size_of; rewrite E; reflexivity). rewrite EB in *.
    assert (planes = [alpha_plane (u_alpha_endpoints u) (u_alpha_selectors u)]) as P by (unfold planes; rewrite E; reflexivity).
    rewrite P in *. rewrite E. cbn [Z.eqb Pos.eqb orb]. specialize (RK ltac:(lia)). apply unpack_dxt5a_ok; auto.
    + pose proof (H1 0 0 0 ltac:(vm_compute; split; congruence)) as K1. pose proof (H2 0 0 0 ltac:(vm_compute; split; congruence)) as K2.
      apply alpha_from_sensible; auto; cbn [plane_at nth Z.to_nat alpha_plane pl_ends pl_sels] in K1, K2; lia.
    + split; [exact HG|split; auto].
Qed.

Lemma level_ok : bytes d -> crnd_unpack_begin m d (zlen d) = Ok u -> 0 <= level < 16 -> level < levels_of d ->
  level_start d level < level_stop d level -> level_stop d level <= zlen d ->
  1 <= faces -> faces = 1 \/ H mod 2 = 0 ->
  level_end m f W H faces < 2 ^ 31 ->
  planes <> [] -> sensible planes D ->
  (forall kv, In kv (level_symbols planes D W H faces) ->
     code_lengths (sizes (fst kv)) /\ prepare_decoder_tables m (sizes (fst kv)) = Ok (dm_of u (fst kv)) /\ coded (sizes (fst kv)) (snd kv)) ->
  bit_stream (firstn (Z.to_nat (level_stop d level - level_start d level)) (skipn (Z.to_nat (level_start d level)) d)) =
    symbol_bits sizes (level_symbols planes D W H faces) ++ rest ->
  crunch_unpack_level m d (zlen d) level = Ok (f, level_blocks planes D W H faces).
Proof.
  intros Hb E Hl HL H1 H2 HF HS HZ Hp Hs HC BS.
  assert (unpacker_init m d (zlen d) = Ok u) as Eu.
  { unfold crnd_unpack_begin in E. destruct (zlen d <? CRNHEADER_MIN_SIZE); [discriminate|]. destruct (unpacker_init m d (zlen d)); [exact E|discriminate|discriminate]. }
  destruct (init_sound m d u Hb Eu) as (U1 & U2 & U3 & U4 & U5 & U6 & U7).
  pose proof (number_range d (70 + 4 * level) 4 Hb ltac:(lia)) as N0. fold (level_start d level) in N0.
  destruct (start_alive (skipn (Z.to_nat (level_start d level)) d) (level_stop d level - level_start d level)
    (symbol_bits sizes (level_symbols planes D W H faces) ++ rest) []) as (c & St & A & Bc & _ & P0).
  { apply bytes_skipn, Hb. } { rewrite zlen_skipn by lia. lia. } { rewrite app_nil_r. exact BS. }
  assert (feeds m u c (level_symbols planes D W H faces)) as F.
  { eapply feeds_ok; [exact HC|exact A|]. rewrite P0, Bc. rewrite zlen_skipn by lia. lia. }
  unfold crunch_unpack_level. rewrite (info_code d Hb). destruct (Z.ltb_spec (zlen d) 74); [lia|]. destruct (Z.ltb_spec (zlen d) (header_room d)); [lia|].
  rewrite U6. cbn [andb]. pose proof (planes_split _ _ _ _ _ Hp) as Pf.
  assert (znth d 18 = f) as E18. { unfold f, number. change (zrange 0 1) with [0]. cbn [fold_right]. change (18 + 0) with 18. change (256 ^ (1 - 1 - 0)) with 1. lia. }
  rewrite E18. destruct (Z.leb_spec f 15); [|lia]. cbn [or_err bind]. rewrite E. cbn [bind i_width i_height i_format info_at].
  pose proof (number_range d 12 2 Hb ltac:(lia)) as Nw. pose proof (number_range d 14 2 Hb ltac:(lia)) as Nh.
  destruct (level_cols_eq (number d 12 2) level ltac:(lia) ltac:(lia)) as [E1 HW]. destruct (level_cols_eq (number d 14 2) level ltac:(lia) ltac:(lia)) as [E2 HH].
  rewrite (Z.max_comm 1 (Z.shiftr (number d 12 2) level)), (Z.max_comm 1 (Z.shiftr (number d 14 2) level)), E1, E2. fold W in HW |- *. fold H in HH |- *.
  rewrite !(Z.max_r 1) by lia. fold f.
  assert (crn_bytes_per_dxt_block f = Ok (block_size_of f)) as ->.
  { destruct Pf as [->|[Pf|[->|[->| ->]]]]; try reflexivity.
    assert (f = 2 \/ f = 3 \/ f = 4 \/ f = 5 \/ f = 6) as [->|[->|[->|[->| ->]]]] by lia; reflexivity. }
  cbn [bind]. set (B := block_size_of f) in *.
  assert (B = 8 \/ B = 16) as HB by (unfold B, block_size_of; destruct ((f =? 0) || (f =? 9)); auto).
  pose proof (level_cols_le (number d 12 2) level ltac:(lia) ltac:(lia)) as HW2. pose proof (level_cols_le (number d 14 2) level ltac:(lia) ltac:(lia)) as HH2.
  fold W in HW2. fold H in HH2. pose proof (number_range d 17 1 Hb ltac:(lia)) as [_ Nf]. change (256 ^ 1) with 256 in Nf. fold faces in Nf.
  destruct (level_room m f W H faces ltac:(split; [exact HW|exact HW2]) ltac:(split; [exact HH|exact HH2]) ltac:(split; [exact HF|exact Nf]) HZ) as (RP & _ & _ & _ & _ & _ & Ht).
  fold B in RP, Ht.
  rewrite (ua_ok m 32 (W * B)) by lia. cbn [bind]. rewrite ua_ok by lia. cbn [bind].
  unfold crnd_unpack_level. change CRNMAX_LEVELS with 16.
  destruct (Z.ltb_spec (W * B * H) 8); [nia|]. destruct (Z.leb_spec 16 level); [lia|]. cbn [orb].
  rewrite (level_source_ok u d level U1 U2 U3) by lia. cbn [bind].
  rewrite (level_2_ok c) by (auto; lia). reflexivity.
Qed.
End Level.
