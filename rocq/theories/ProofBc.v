(** * Proofs for BC1-BC5 and ATC *)
From Verif Require Import Base BaseLemmas BitLemmas ModelColor SpecImage ProofDecoder ModelBc SpecBc.

(** ** Packing *)
Lemma color_rgba r g b a : color r g b a = rgba r g b a.
Proof. unfold color, rgba; cbn [le_bytes]; ring. Qed.

Lemma rgb565_spec d : 0 <= d < 65536 ->
  rgb565_le d = (red565 d, green565 d, blue565 d) /\
  is_byte (red565 d) /\ is_byte (green565 d) /\ is_byte (blue565 d).
Proof.
  intros H.
  split; [|unfold is_byte, red565, green565, blue565, rep5, rep6; repeat split; dlia].
  unfold rgb565_le. rewrite !shr_div by lia. rewrite shl_mul by lia.
  assert (forall x, 0 <= x < 256 -> Z.land x 0xf8 = x / 8 * 2 ^ 3 /\ Z.land x 0xfc = x / 4 * 2 ^ 2) as L.
  { intros x Hx. assert (all_below 256 (fun x => (Z.land x 0xf8 =? x / 8 * 2 ^ 3) && (Z.land x 0xfc =? x / 4 * 2 ^ 2)) = true) as C
      by (vm_cast_no_check (eq_refl true)).
    pose proof (all_below_spec _ _ C x Hx) as E; cbn beta in E. apply andb_prop in E. lia. }
  assert (forall x, 0 <= x -> Z.land x 0xfc = Z.land (x mod 256) 0xfc) as M.
  { intros x Hx. change 256 with (2 ^ 8). rewrite <- (land_mask x 8) by lia.
    rewrite <- Z.land_assoc. reflexivity. }
  unfold u8, u16. apply f_equal2; [apply f_equal2|].
  - rewrite (proj1 (L (d / 2 ^ 8) ltac:(dlia))). rewrite Z.mod_small by dlia. rewrite (Z.mod_small (d / 2 ^ 13)) by dlia.
    rewrite lor_add by dlia. unfold red565, rep5. dlia.
  - change 3 with (2 ^ 2 - 1) at 2. rewrite land_mask by lia. rewrite M by dlia.
    rewrite (proj2 (L ((d / 2 ^ 3) mod 256) ltac:(dlia))).
    rewrite (Z.mod_small (_ * 2 ^ 2)) by dlia. rewrite (Z.mod_small (_ mod 2 ^ 2)) by dlia.
    rewrite lor_add by dlia. unfold green565, rep6. dlia.
  - change 7 with (2 ^ 3 - 1). rewrite land_mask by lia.
    assert ((d * 2 ^ 3) mod 2 ^ 16 mod 2 ^ 8 = d mod 32 * 2 ^ 3) as -> by dlia.
    rewrite (Z.mod_small (_ mod 2 ^ 3)) by dlia. rewrite lor_add by dlia. unfold blue565, rep5. dlia.
Qed.

Lemma le16_bound b o : bytes b -> 0 <= le16 b o < 65536.
Proof.
  intros H; unfold le16. pose proof (bytes_znth b o H); pose proof (bytes_znth b (o + 1) H); lia.
Qed.

Lemma u8_small x : 0 <= x < 256 -> u8 x = x.
Proof. intros; unfold u8; apply Z.mod_small; lia. Qed.

Lemma land3 x : Z.land x 3 = x mod 4.
Proof. change 3 with (2 ^ 2 - 1); rewrite land_mask by lia; reflexivity. Qed.
Lemma land7 x : Z.land x 7 = x mod 8.
Proof. change 7 with (2 ^ 3 - 1); rewrite land_mask by lia; reflexivity. Qed.

(** Index bits *)
Lemma index2_le b t : bytes b -> 0 <= t < 16 ->
  le_bytes [znth b 4; znth b 5; znth b 6; znth b 7] / 4 ^ t mod 4 = index2 b 4 t.
Proof.
  intros Hb Ht. unfold index2.
  rewrite (pow4 t), (pow4 (t mod 4)) by dlia.
  replace (2 * t) with (8 * (t / 4) + 2 * (t mod 4)) by dlia.
  pose proof (le_field [znth b 4; znth b 5; znth b 6; znth b 7] (t / 4) (2 * (t mod 4)) 2) as L.
  change (2 ^ 2) with 4 in L. rewrite L; try dlia; clear L.
  2:{ change [znth b 4; znth b 5; znth b 6; znth b 7] with (map (znth b) [4; 5; 6; 7]).
      apply bytes_map_znth; auto. }
  do 2 f_equal.
  assert (0 <= t / 4 < 4) as Hk by dlia. set (k := t / 4) in *. clearbody k.
  enum k Hk; reflexivity.
Qed.

Lemma bc1_mix_byte four e0 e1 s : is_byte e0 -> is_byte e1 -> is_byte (bc1_mix four e0 e1 s).
Proof.
  unfold is_byte, bc1_mix; intros.
  destruct (s =? 0); [auto|]. destruct (s =? 1); [auto|].
  destruct (s =? 2), four; try dlia; lia.
Qed.

Lemma four_way {A} (P : A -> Prop) (f : Z -> A) s : 0 <= s < 4 -> P (f 0) -> P (f 1) -> P (f 2) -> P (f 3) -> P (f s).
Proof. intros H; enum s H; auto. Qed.

Lemma mix21_ok m x y : is_byte x -> is_byte y -> mix21 m x y = Ok ((2 * x + y) / 3).
Proof.
  unfold is_byte, mix21; intros. rewrite !ua_ok by lia; cbn [bind]. rewrite ua_ok by lia; cbn [bind].
  rewrite u8_small by dlia. do 2 f_equal; ring.
Qed.
Lemma mix12_ok m x y : is_byte x -> is_byte y -> mix12 m x y = Ok ((x + 2 * y) / 3).
Proof.
  unfold is_byte, mix12; intros. rewrite !ua_ok by lia; cbn [bind]. rewrite ua_ok by lia; cbn [bind].
  rewrite u8_small by dlia. do 2 f_equal; ring.
Qed.
Lemma mix11_ok m x y : is_byte x -> is_byte y -> mix11 m x y = Ok ((x + y) / 2).
Proof.
  unfold is_byte, mix11; intros. rewrite !ua_ok by lia; cbn [bind].
  rewrite u8_small by dlia. reflexivity.
Qed.

Definition bc1_any (use_alpha : bool) (b : list Z) (t : Z) : Z :=
  if use_alpha then bc1a_texel b t else bc1_texel b t.

Lemma bc1_block_gen m data outbuf ua_ : bytes data -> 8 <= zlen data -> 16 <= zlen outbuf ->
  decode_bc1_block_gen m data outbuf ua_ =
  Ok (tab 16 (bc1_any ua_ data) ++ skipn 16 outbuf).
Proof.
  intros Hb Hd Ho. unfold decode_bc1_block_gen.
  rewrite !idx_ok by lia; cbn [bind].
  rewrite slice_znth by lia. cbn [bind].
  replace (le_bytes [znth data 0; znth data 1]) with (le16 data 0) by (unfold le16; cbn [le_bytes]; ring_simplify; reflexivity).
  replace (le_bytes [znth data 2; znth data 3]) with (le16 data 2) by (unfold le16; cbn [le_bytes]; ring_simplify; reflexivity).
  pose proof (rgb565_spec (le16 data 0) (le16_bound _ _ Hb)) as (E0 & R0 & G0 & B0).
  pose proof (rgb565_spec (le16 data 2) (le16_bound _ _ Hb)) as (E1 & R1 & G1 & B1).
  rewrite E0, E1.
  set (four := le16 data 2 <? le16 data 0).
  match goal with |- bind ?X _ = _ => replace X with
    (Ok (rgba (bc1_mix four (red565 (le16 data 0)) (red565 (le16 data 2)) 2)
              (bc1_mix four (green565 (le16 data 0)) (green565 (le16 data 2)) 2)
              (bc1_mix four (blue565 (le16 data 0)) (blue565 (le16 data 2)) 2) 255,
         rgba (bc1_mix four (red565 (le16 data 0)) (red565 (le16 data 2)) 3)
              (bc1_mix four (green565 (le16 data 0)) (green565 (le16 data 2)) 3)
              (bc1_mix four (blue565 (le16 data 0)) (blue565 (le16 data 2)) 3)
              (if ua_ && negb four then 0 else 255))) end.
  2:{ destruct four; cbn [negb]; rewrite ?andb_false_r, ?andb_true_r.
      - rewrite !mix21_ok, !mix12_ok by auto; cbn [bind]. rewrite !color_rgba. reflexivity.
      - rewrite !mix11_ok by auto; cbn [bind]. rewrite !color_rgba. reflexivity. }
  cbn [bind].
  set (D := le_bytes (map (znth data) (zrange 4 8))).
  assert (D = le_bytes [znth data 4; znth data 5; znth data 6; znth data 7]) as ED by reflexivity.
  pose proof (store_loop (bc1_any ua_ data) (fun i => D / 4 ^ i) outbuf 16) as L.
  cbv beta in L. change (4 ^ 0) with 1 in L. rewrite Z.div_1_r in L.
  rewrite L; [reflexivity|lia|]. clear L.
  intros i l Hi Hl.
  rewrite land3, ED, index2_le by auto.
  rewrite !color_rgba.
  replace (Z.shiftr (le_bytes [znth data 4; znth data 5; znth data 6; znth data 7] / 4 ^ i) 2)
    with (le_bytes [znth data 4; znth data 5; znth data 6; znth data 7] / 4 ^ (i + 1)).
  2:{ rewrite Z.shiftr_div_pow2 by lia. rewrite Z.pow_add_r, Z.div_div by lia. reflexivity. }
  unfold bc1_any, bc1_texel, bc1a_texel, bc1_r, bc1_g, bc1_b, bc1_four.
  change (0 + 2) with 2. change (0 + 4) with 4. fold four.
  assert (0 <= index2 data 4 i < 4) as Hs by (unfold index2; dlia).
  set (s := index2 data 4 i) in *. clearbody s.
  enum s Hs; destruct ua_, four; reflexivity.
Qed.

(** ** Channel updates of pixel words *)
Definition set_chan (ch p v : Z) : Z := p - (p / 2 ^ (8 * ch) mod 256) * 2 ^ (8 * ch) + v * 2 ^ (8 * ch).

Lemma set_chan_spec p v ch : 0 <= p < 2 ^ 32 -> 0 <= v < 256 -> 0 <= ch < 4 ->
  Z.lor (Z.land p (Z.lxor 0xFFFFFFFF (255 * 2 ^ (8 * ch)))) (v * 2 ^ (8 * ch)) = set_chan ch p v.
Proof.
  intros Hp Hv Hc. rewrite (word_split p Hp) at 1. unfold set_chan.
  assert (is_byte (p mod 256)) by (unfold is_byte; dlia).
  assert (is_byte (p / 256 mod 256)) by (unfold is_byte; dlia).
  assert (is_byte (p / 65536 mod 256)) by (unfold is_byte; dlia).
  assert (is_byte (p / 16777216 mod 256)) by (unfold is_byte; dlia).
  assert (is_byte 255) by (unfold is_byte; lia). assert (is_byte 0) by (unfold is_byte; lia).
  assert (is_byte v) by auto.
  enum ch Hc.
  - change (Z.lxor 4294967295 (255 * 2 ^ (8 * 0))) with (le_bytes [0; 255; 255; 255]).
    change (2 ^ (8 * 0)) with 1.
    replace (v * 1) with (le_bytes [v; 0; 0; 0]) at 1 by (cbn [le_bytes]; ring).
    rewrite land_word by auto. rewrite !land_255, Z.land_0_r by auto. rewrite lor_word by auto.
    rewrite !Z.lor_0_r, Z.lor_0_l. cbn [le_bytes]. rewrite Z.div_1_r. dlia.
  - change (Z.lxor 4294967295 (255 * 2 ^ (8 * 1))) with (le_bytes [255; 0; 255; 255]).
    change (2 ^ (8 * 1)) with 256.
    replace (v * 256) with (le_bytes [0; v; 0; 0]) at 1 by (cbn [le_bytes]; ring).
    rewrite land_word by auto. rewrite !land_255, Z.land_0_r by auto. rewrite lor_word by auto.
    rewrite !Z.lor_0_r, Z.lor_0_l. cbn [le_bytes]. dlia.
  - change (Z.lxor 4294967295 (255 * 2 ^ (8 * 2))) with (le_bytes [255; 255; 0; 255]).
    change (2 ^ (8 * 2)) with 65536.
    replace (v * 65536) with (le_bytes [0; 0; v; 0]) at 1 by (cbn [le_bytes]; ring).
    rewrite land_word by auto. rewrite !land_255, Z.land_0_r by auto. rewrite lor_word by auto.
    rewrite !Z.lor_0_r, Z.lor_0_l. cbn [le_bytes]. dlia.
  - change (Z.lxor 4294967295 (255 * 2 ^ (8 * 3))) with (le_bytes [255; 255; 255; 0]).
    change (2 ^ (8 * 3)) with 16777216.
    replace (v * 16777216) with (le_bytes [0; 0; 0; v]) at 1 by (cbn [le_bytes]; ring).
    rewrite land_word by auto. rewrite !land_255, Z.land_0_r by auto. rewrite lor_word by auto.
    rewrite !Z.lor_0_r, Z.lor_0_l. cbn [le_bytes]. dlia.
Qed.

Lemma set_chan_3 r g b a v : is_byte r -> is_byte g -> is_byte b -> is_byte a ->
  set_chan 3 (rgba r g b a) v = rgba r g b v.
Proof. unfold set_chan, rgba, is_byte; intros. change (2 ^ (8 * 3)) with 16777216. dlia. Qed.
Lemma set_chan_2 r g b a v : is_byte r -> is_byte g -> is_byte b -> is_byte a ->
  set_chan 2 (rgba r g b a) v = rgba v g b a.
Proof. unfold set_chan, rgba, is_byte; intros. change (2 ^ (8 * 2)) with 65536. dlia. Qed.
Lemma set_chan_1 r g b a v : is_byte r -> is_byte g -> is_byte b -> is_byte a ->
  set_chan 1 (rgba r g b a) v = rgba r v b a.
Proof. unfold set_chan, rgba, is_byte; intros. change (2 ^ (8 * 1)) with 256. dlia. Qed.

Lemma rgba_u32 r g b a : is_byte r -> is_byte g -> is_byte b -> is_byte a ->
  is_u32 (rgba r g b a).
Proof. unfold is_u32, rgba, is_byte; intros. lia. Qed.

(** ** Interpolated alpha *)
Lemma ramp_byte a0 a1 s : is_byte a0 -> is_byte a1 -> 0 <= s < 8 -> is_byte (ramp a0 a1 s).
Proof. unfold is_byte, ramp; intros H0 H1 H; enum s H; cbn [Z.eqb Pos.eqb]; destruct (a1 <? a0); dlia. Qed.

Lemma bc3_table_ok m a0 a1 : is_byte a0 -> is_byte a1 ->
  bc3_table m a0 a1 = Ok (map (ramp a0 a1) [0; 1; 2; 3; 4; 5; 6; 7]).
Proof.
  unfold is_byte; intros. unfold bc3_table, wmix. cbn [map]. unfold ramp at 1 2; cbn [Z.eqb Pos.eqb].
  unfold ramp; cbn [Z.eqb Pos.eqb].
  destruct (Z.ltb_spec a1 a0); rewrite !ua_ok by lia; cbn [bind];
  repeat (rewrite ua_ok by lia; cbn [bind]);
  repeat (f_equal; try ring).
Qed.

Definition index3_raw (b : list Z) : Z :=
  le_bytes [znth b 2; znth b 3; znth b 4; znth b 5; znth b 6; znth b 7].

Lemma index3_eq b t : index3 b 0 t = index3_raw b / 8 ^ t mod 8.
Proof.
  unfold index3, index3_raw. cbn [le_bytes].
  change (0 + 2) with 2; change (0 + 3) with 3; change (0 + 4) with 4; change (0 + 5) with 5;
  change (0 + 6) with 6; change (0 + 7) with 7. do 2 f_equal. ring.
Qed.

Lemma interp8_byte b o t : bytes b -> is_byte (interp8 b o t).
Proof.
  intros. unfold interp8. apply ramp_byte; try (apply bytes_znth; auto).
  unfold index3. apply Z.mod_pos_bound; lia.
Qed.

Lemma bc3_alpha_ok m data outbuf ch : bytes data -> 8 <= zlen data -> Forall is_u32 outbuf ->
  0 <= ch < 4 ->
  decode_bc3_alpha m data outbuf ch =
  Ok (tab (zlen outbuf) (fun t => set_chan ch (znth outbuf t) (interp8 data 0 t))).
Proof.
  intros Hb Hd Ho Hc. unfold decode_bc3_alpha.
  rewrite !idx_ok by lia; cbn [bind].
  rewrite bc3_table_ok by (apply bytes_znth; auto); cbn [bind].
  rewrite slice_znth by lia; cbn [bind].
  rewrite ua_ok by lia; cbn [bind].
  rewrite ushl_ok by lia; cbn [bind].
  rewrite Z.mod_small.
  2:{ assert (2 ^ (ch * 8) <= 2 ^ 24) by (apply Z.pow_le_mono_r; lia). nia. }
  assert (Z.shiftr (le_bytes (map (znth data) (zrange 0 8))) 16 = index3_raw data) as E16.
  { rewrite Z.shiftr_div_pow2 by lia. change 16 with (8 * 2).
    rewrite le_bytes_skip by (try lia; apply bytes_map_znth; auto). reflexivity. }
  rewrite E16.
  pose proof (rewrite_loop (fun t p => set_chan ch p (interp8 data 0 t)) (fun i => index3_raw data / 8 ^ i)
     outbuf (zlen outbuf)) as L. cbv beta in L. change (8 ^ 0) with 1 in L. rewrite Z.div_1_r in L.
  rewrite L; cbn [bind]; clear L.
  - rewrite skipn_all2, app_nil_r by (unfold zlen; lia). reflexivity.
  - pose proof (zlen_nonneg outbuf); lia.
  - intros i l Hi Hl Hn.
    rewrite idx_ok by lia; cbn [bind]. rewrite Hn, land7, <- index3_eq.
    assert (0 <= index3 data 0 i < 8) as Hs by (unfold index3; apply Z.mod_pos_bound; lia).
    assert (idx (map (ramp (znth data 0) (znth data 1)) [0; 1; 2; 3; 4; 5; 6; 7]) (index3 data 0 i)
            = Ok (interp8 data 0 i)) as ->.
    { unfold interp8. set (s := index3 data 0 i) in *. clearbody s. change (0 + 1) with 1.
      enum s Hs; reflexivity. }
    cbn [bind].
    pose proof (interp8_byte data 0 i Hb) as Hi8. unfold is_byte in Hi8.
    rewrite ushl_ok by lia; cbn [bind].
    rewrite Z.mod_small.
    2:{ assert (0 <= 2 ^ (ch * 8) <= 2 ^ 24) by (split; [lia|apply Z.pow_le_mono_r; lia]). nia. }
    replace (ch * 8) with (8 * ch) by ring.
    rewrite set_chan_spec; auto.
    + replace (Z.shiftr (index3_raw data / 8 ^ i) 3) with (index3_raw data / 8 ^ (i + 1)); auto.
      rewrite Z.shiftr_div_pow2 by lia. rewrite Z.pow_add_r, Z.div_div by lia. reflexivity.
    + rewrite Forall_forall in Ho. apply Ho. unfold znth. apply nth_In. unfold zlen in *; lia.
Qed.

(** ** BC2 alpha *)
Lemma bc2_av m data i : bytes data -> 8 <= zlen data -> 0 <= i < 16 ->
  (let* b := idx data (Z.shiftr i 1) in
   let* av := ushr m 8 b (Z.shiftl (Z.land i 1) 2) in
   Ok (Z.lor (u8 (Z.shiftl (Z.land av 0xF) 4)) (Z.land av 0xF))) = Ok (bc2_alpha data i).
Proof.
  intros Hb Hd Hi.
  assert (forall v, 0 <= v < 16 -> Z.lor (u8 (Z.shiftl v 4)) v = 17 * v) as L.
  { intros v Hv. enum v Hv; reflexivity. }
  rewrite shr_div, shl_mul by lia.
  change 1 with (2 ^ 1 - 1) at 2. rewrite land_mask by lia.
  change (2 ^ 1) with 2. change (2 ^ 2) with 4.
  rewrite idx_ok by dlia; cbn [bind].
  rewrite ushr_ok by dlia; cbn [bind].
  change 15 with (2 ^ 4 - 1). rewrite land_mask by lia. change (2 ^ 4) with 16.
  rewrite L by dlia. unfold bc2_alpha. do 3 f_equal.
  replace (i mod 2 * 4) with (4 * (i mod 2)) by ring. rewrite Z.pow_mul_r by (try lia; dlia). reflexivity.
Qed.

Lemma bc2_alpha_ok m data outbuf : bytes data -> 8 <= zlen data -> Forall is_u32 outbuf ->
  16 <= zlen outbuf ->
  decode_bc2_alpha m data outbuf 3 =
  Ok (tab 16 (fun t => set_chan 3 (znth outbuf t) (bc2_alpha data t)) ++ skipn 16 outbuf).
Proof.
  intros Hb Hd Ho Hl. unfold decode_bc2_alpha.
  rewrite ua_ok by lia; cbn [bind].
  rewrite ushl_ok by lia; cbn [bind].
  rewrite slice_ok by lia; cbn [bind].
  pose proof (rewrite_loop (fun t p => set_chan 3 p (bc2_alpha data t)) (fun i => tt) outbuf 16) as L.
  cbv beta in L. rewrite L; [reflexivity|lia|]. clear L.
  intros i l Hi Hll Hn.
  pose proof (bc2_av m data i Hb Hd Hi) as E.
  apply bind_ok_inv in E as (b & E1 & E). apply bind_ok_inv in E as (av & E2 & E3).
  rewrite E1; cbn [bind]. rewrite E2; cbn [bind]. assert (Oi : forall (x y : Z), Ok x = Ok y -> x = y) by (intros ? ? HH; inversion HH; reflexivity).
  apply Oi in E3. clear Oi. cbv zeta.
  rewrite idx_ok by lia; cbn [bind]. rewrite E3.
  assert (is_byte (bc2_alpha data i)) as Ha.
  { unfold is_byte, bc2_alpha. pose proof (Z.mod_pos_bound (znth data (i / 2) / 16 ^ (i mod 2)) 16). lia. }
  unfold is_byte in Ha.
  rewrite ushl_ok by lia; cbn [bind]. rewrite !Z.mod_small by (change (2 ^ (3 * 8)) with 16777216; lia).
  rewrite Hn. change (3 * 8) with (8 * 3).
  rewrite set_chan_spec; auto; [|lia].
  rewrite Forall_forall in Ho. apply Ho. unfold znth. apply nth_In. unfold zlen in *; lia.
Qed.

(** ** Block lemmas *)
Lemma bc1_parts_byte b o t : bytes b ->
  is_byte (bc1_r b o t) /\ is_byte (bc1_g b o t) /\ is_byte (bc1_b b o t).
Proof.
  intros Hb.
  pose proof (rgb565_spec (le16 b o) (le16_bound _ _ Hb)) as (_ & R0 & G0 & B0).
  pose proof (rgb565_spec (le16 b (o + 2)) (le16_bound _ _ Hb)) as (_ & R1 & G1 & B1).
  unfold bc1_r, bc1_g, bc1_b. repeat split; apply bc1_mix_byte; auto.
Qed.

Lemma bc1_shift b t : 0 <= t < 16 ->
  bc1_r (skipn 8 b) 0 t = bc1_r b 8 t /\ bc1_g (skipn 8 b) 0 t = bc1_g b 8 t /\
  bc1_b (skipn 8 b) 0 t = bc1_b b 8 t.
Proof.
  intros Ht. unfold bc1_r, bc1_g, bc1_b, bc1_four, le16, index2.
  rewrite !znth_skipn by dlia.
  change (Z.of_nat 8 + 0) with 8. change (Z.of_nat 8 + (0 + 1)) with (8 + 1).
  change (Z.of_nat 8 + (0 + 2)) with (8 + 2). change (Z.of_nat 8 + (0 + 2 + 1)) with (8 + 2 + 1).
  replace (Z.of_nat 8 + (0 + 4 + t / 4)) with (8 + 4 + t / 4) by lia. auto.
Qed.

Lemma interp8_shift b t : interp8 (skipn 8 b) 0 t = interp8 b 8 t.
Proof.
  unfold interp8, index3. rewrite !znth_skipn by lia. reflexivity.
Qed.

Lemma forall_tab_app n (f : Z -> Z) l (P : Z -> Prop) : 0 <= n -> (forall i, 0 <= i < n -> P (f i)) -> Forall P l ->
  Forall P (tab n f ++ l).
Proof.
  intros Hn Hf Hl. apply Forall_app; split; auto. unfold tab. rewrite Forall_map, Forall_forall.
  intros i Hi. apply in_zrange in Hi. auto.
Qed.

Lemma forall_skipn {A} (P : A -> Prop) l n : Forall P l -> Forall P (skipn n l).
Proof. intros H; rewrite <- (firstn_skipn n l) in H; apply Forall_app in H; tauto. Qed.

Lemma znth_tab_app n f l i : 0 <= i < n -> znth (tab n f ++ l) i = f i.
Proof. intros. rewrite znth_app1 by (rewrite zlen_tab; lia). apply znth_tab; auto. Qed.

Lemma zlen_tab_app n f (l : list Z) : 0 <= n <= zlen l -> zlen (tab n f ++ skipn (Z.to_nat n) l) = zlen l.
Proof. intros. rewrite zlen_app, zlen_tab, zlen_skipn. lia. Qed.

Lemma skipn_tab_app n f (l : list Z) : 0 <= n ->
  skipn (Z.to_nat n) (tab n f ++ l) = l.
Proof.
  intros. rewrite skipn_app. rewrite skipn_all2.
  2:{ pose proof (zlen_tab n f) as L; unfold zlen in L; lia. }
  pose proof (zlen_tab n f) as L; unfold zlen in L.
  replace (Z.to_nat n - length (tab n f))%nat with O by lia. reflexivity.
Qed.

Theorem bc1_block_ok m data outbuf : bytes data -> 8 <= zlen data -> 16 <= zlen outbuf ->
  decode_bc1_block m data outbuf = Ok (tab 16 (bc1_texel data) ++ skipn 16 outbuf).
Proof. intros; apply bc1_block_gen; auto. Qed.

Theorem bc1a_block_ok m data outbuf : bytes data -> 8 <= zlen data -> 16 <= zlen outbuf ->
  decode_bc1a_block m data outbuf = Ok (tab 16 (bc1a_texel data) ++ skipn 16 outbuf).
Proof. intros; apply bc1_block_gen; auto. Qed.

Lemma bc1_texel_u32 b t : bytes b -> is_u32 (bc1_texel b t).
Proof.
  intros Hb; unfold bc1_texel. destruct (bc1_parts_byte b 0 t Hb) as (R & G & B).
  apply rgba_u32; auto. unfold is_byte; lia.
Qed.

Theorem bc2_block_ok m data outbuf : bytes data -> 16 <= zlen data -> 16 <= zlen outbuf ->
  Forall is_u32 outbuf ->
  decode_bc2_block m data outbuf = Ok (tab 16 (bc2_texel data) ++ skipn 16 outbuf).
Proof.
  intros Hb Hd Ho Hu. unfold decode_bc2_block.
  rewrite slice_from_ok by lia; cbn [bind]. change (Z.to_nat 8) with 8%nat.
  rewrite bc1_block_ok by (try apply bytes_skipn; auto; rewrite zlen_skipn; lia); cbn [bind].
  rewrite bc2_alpha_ok; auto; try lia.
  - f_equal. change 16%nat with (Z.to_nat 16). rewrite skipn_tab_app by lia. f_equal.
    apply tab_ext; intros t Ht. rewrite znth_tab_app by lia.
    unfold bc1_texel, bc2_texel. destruct (bc1_shift data t Ht) as (-> & -> & ->).
    destruct (bc1_parts_byte data 8 t Hb) as (R & G & B).
    apply set_chan_3; auto. unfold is_byte; lia.
  - apply forall_tab_app; [lia| |apply forall_skipn; auto].
    intros; apply bc1_texel_u32, bytes_skipn; auto.
  - change 16%nat with (Z.to_nat 16). rewrite zlen_tab_app; lia.
Qed.

(** On a 16-entry buffer BC3 is exact.  On a longer one it also overwrites the
    alpha of the entries past the block (see [bc3_block_gen]). *)
Theorem bc3_block_gen m data outbuf : bytes data -> 16 <= zlen data -> 16 <= zlen outbuf ->
  Forall is_u32 outbuf ->
  decode_bc3_block m data outbuf =
  Ok (tab (zlen outbuf) (fun t => if t <? 16 then bc3_texel data t
                                  else set_chan 3 (znth outbuf t) (interp8 data 0 t))).
Proof.
  intros Hb Hd Ho Hu. unfold decode_bc3_block.
  rewrite slice_from_ok by lia; cbn [bind]. change (Z.to_nat 8) with 8%nat.
  rewrite bc1_block_ok by (try apply bytes_skipn; auto; rewrite zlen_skipn; lia); cbn [bind].
  rewrite bc3_alpha_ok; auto; try lia.
  - f_equal. change 16%nat with (Z.to_nat 16). rewrite zlen_tab_app by lia.
    apply tab_ext; intros t Ht. destruct (Z.ltb_spec t 16).
    + rewrite znth_tab_app by lia.
      unfold bc1_texel, bc3_texel. destruct (bc1_shift data t ltac:(lia)) as (-> & -> & ->).
      destruct (bc1_parts_byte data 8 t Hb) as (R & G & B).
      apply set_chan_3; auto. unfold is_byte; lia.
    + rewrite znth_app2 by (rewrite zlen_tab; lia). rewrite zlen_tab, znth_skipn by lia.
      do 2 f_equal; lia.
  - apply forall_tab_app; [lia| |apply forall_skipn; auto].
    intros; apply bc1_texel_u32, bytes_skipn; auto.
Qed.

Theorem bc3_block_ok m data outbuf : bytes data -> 16 <= zlen data -> zlen outbuf = 16 ->
  Forall is_u32 outbuf ->
  decode_bc3_block m data outbuf = Ok (tab 16 (bc3_texel data)).
Proof.
  intros. rewrite bc3_block_gen by (auto; lia). rewrite H1. apply (f_equal Ok), tab_ext; intros.
  destruct (Z.ltb_spec i 16); auto; lia.
Qed.

Theorem bc4_block_gen m data outbuf : bytes data -> 8 <= zlen data -> Forall is_u32 outbuf ->
  decode_bc4_block m data outbuf =
  Ok (tab (zlen outbuf) (fun t => set_chan 2 (znth outbuf t) (interp8 data 0 t))).
Proof. intros; unfold decode_bc4_block; apply bc3_alpha_ok; auto; lia. Qed.

Lemma set_chan_u32 ch p v : 0 <= ch < 4 -> is_u32 p -> is_byte v -> is_u32 (set_chan ch p v).
Proof.
  unfold is_u32, is_byte, set_chan; intros Hc Hp Hv.
  enum ch Hc; [change (2 ^ (8 * 0)) with 1|change (2 ^ (8 * 1)) with 256|
    change (2 ^ (8 * 2)) with 65536|change (2 ^ (8 * 3)) with 16777216]; dlia.
Qed.

Theorem bc5_block_gen m data outbuf : bytes data -> 16 <= zlen data -> Forall is_u32 outbuf ->
  decode_bc5_block m data outbuf =
  Ok (tab (zlen outbuf) (fun t =>
        set_chan 1 (set_chan 2 (znth outbuf t) (interp8 data 0 t)) (interp8 data 8 t))).
Proof.
  intros Hb Hd Hu; unfold decode_bc5_block.
  pose proof (zlen_nonneg outbuf).
  rewrite bc3_alpha_ok by (auto; lia); cbn [bind].
  rewrite slice_from_ok by lia; cbn [bind]. change (Z.to_nat 8) with 8%nat.
  rewrite bc3_alpha_ok; try apply bytes_skipn; auto; try lia.
  - f_equal. rewrite zlen_tab. rewrite Z.max_r by lia. apply tab_ext; intros t Ht.
    rewrite znth_tab by lia. rewrite interp8_shift. reflexivity.
  - rewrite zlen_skipn; lia.
  - rewrite <- (app_nil_r (tab _ _)). apply forall_tab_app; auto.
    intros t Ht. apply set_chan_u32; [lia| |apply interp8_byte; auto].
    rewrite Forall_forall in Hu. apply Hu. unfold znth. apply nth_In. unfold zlen in *; lia.
Qed.

(** ** ATC *)
Lemma atc_expand5 m v : 0 <= v < 32 -> atc_expand m v 5 = Ok (rep5 v).
Proof.
  intros H. unfold atc_expand. rewrite ua_ok by lia; cbn [bind].
  rewrite ushl_ok by lia; cbn [bind]. rewrite ushr_ok by lia; cbn [bind].
  enum v H; reflexivity.
Qed.
Lemma atc_expand6 m v : 0 <= v < 64 -> atc_expand m v 6 = Ok (rep6 v).
Proof.
  intros H. unfold atc_expand. rewrite ua_ok by lia; cbn [bind].
  rewrite ushl_ok by lia; cbn [bind]. rewrite ushr_ok by lia; cbn [bind].
  enum v H; reflexivity.
Qed.
Lemma atc_interop_ok m x y : is_byte x -> is_byte y -> atc_interop m x y = Ok ((5 * x + 3 * y) / 8).
Proof.
  unfold is_byte, atc_interop; intros. rewrite !ua_ok by lia; cbn [bind]. rewrite ua_ok by lia; cbn [bind].
  rewrite u8_small by dlia. reflexivity.
Qed.
Lemma atc_dark_ok x y : atc_dark x y = atc_dark_code x y.
Proof. unfold atc_dark, atc_dark_code, u8, u16. change (2 ^ 8) with 256. change (2 ^ 16) with 65536. dlia. Qed.

Lemma atc_field c k n mask : 0 <= n <= 8 -> 0 <= k -> mask = 2 ^ n - 1 ->
  u8 (Z.land (Z.shiftr c k) mask) = c / 2 ^ k mod 2 ^ n.
Proof.
  intros Hn Hk ->. rewrite land_mask, shr_div by lia. apply u8_small.
  pose proof (Z.mod_pos_bound (c / 2 ^ k) (2 ^ n) ltac:(lia)).
  assert (2 ^ n <= 2 ^ 8) by (apply Z.pow_le_mono_r; lia). lia.
Qed.

Lemma atc_mode_bit c : 0 <= c < 65536 -> (0 =? Z.land c 32768) = negb (32768 <=? c).
Proof.
  intros H.
  change 32768 with (2 ^ 15) at 1. rewrite land_pow2 by lia. change (2 ^ 15) with 32768.
  rewrite (Z.mod_small (c / 32768)) by dlia.
  destruct (Z.eqb_spec 0 (c / 32768 * 32768)), (Z.leb_spec 32768 c); auto; dlia.
Qed.

Theorem atc_rgb4_block_ok m data outbuf : bytes data -> 8 <= zlen data -> 16 <= zlen outbuf ->
  decode_atc_rgb4_block m data outbuf =
  Ok (tab 16 (atc_rgb4_texel atc_dark_code data) ++ skipn 16 outbuf).
Proof.
  intros Hb Hd Ho. unfold decode_atc_rgb4_block.
  rewrite !idx_ok by lia; cbn [bind].
  replace (le_bytes [znth data 0; znth data 1]) with (le16 data 0) by (unfold le16; cbn [le_bytes]; ring_simplify; reflexivity).
  replace (le_bytes [znth data 2; znth data 3]) with (le16 data 2) by (unfold le16; cbn [le_bytes]; ring_simplify; reflexivity).
  pose proof (le16_bound data 0 Hb) as H0. pose proof (le16_bound data 2 Hb) as H2.
  set (c0 := le16 data 0) in *. set (c1 := le16 data 2) in *.
  rewrite !(atc_field _ 0 5), !(atc_field _ 5 5), !(atc_field _ 10 5), !(atc_field _ 5 6), !(atc_field _ 11 5)
    by (try lia; reflexivity).
  change (2 ^ 0) with 1. change (2 ^ 5) with 32. change (2 ^ 10) with 1024.
  change (2 ^ 6) with 64. change (2 ^ 11) with 2048. rewrite !Z.div_1_r.
  rewrite !atc_expand5, !atc_expand6 by dlia; cbn [bind].
  replace (c1 / 2048 mod 32) with (c1 / 2048) by dlia.
  fold (atc_b0 c0) (atc_g0 c0) (atc_r0 c0) (blue565 c1) (green565 c1) (red565 c1).
  pose proof (rgb565_spec c1 H2) as (_ & R1 & G1 & B1).
  assert (is_byte (atc_b0 c0)) as B0 by (unfold is_byte, atc_b0, rep5; dlia).
  assert (is_byte (atc_g0 c0)) as G0 by (unfold is_byte, atc_g0, rep5; dlia).
  assert (is_byte (atc_r0 c0)) as R0 by (unfold is_byte, atc_r0, rep5; dlia).
  rewrite atc_mode_bit by auto.
  assert (forall t, 0 <= t < 16 -> 0 <= index2 data 4 t < 4) as Hix by (intros; unfold index2; dlia).
  match goal with |- bind ?X _ = _ => replace X with
    (Ok (flat_map (fun s => [atc_mix atc_dark_code (32768 <=? c0) (atc_b0 c0) (blue565 c1) s;
                        atc_mix atc_dark_code (32768 <=? c0) (atc_g0 c0) (green565 c1) s;
                        atc_mix atc_dark_code (32768 <=? c0) (atc_r0 c0) (red565 c1) s; 0]) [0; 1; 2; 3])) end.
  2:{ destruct (32768 <=? c0); cbn [negb].
      - rewrite !atc_dark_ok. reflexivity.
      - rewrite !atc_interop_ok by auto; cbn [bind flat_map app]. unfold atc_mix; cbn [Z.eqb Pos.eqb].
        repeat (f_equal; try ring). }
  cbn [bind].
  pose proof (store_loop (atc_rgb4_texel atc_dark_code data) (fun i => 32 + 2 * i) outbuf 16) as L.
  cbv beta in L. change (32 + 2 * 0) with 32 in L.
  rewrite L; [reflexivity|lia|]. clear L.
  intros i l Hi Hl.
  rewrite shr_div, land7 by lia. change (2 ^ 3) with 8.
  rewrite idx_ok by dlia; cbn [bind]. rewrite ushr_ok by dlia; cbn [bind].
  rewrite land3.
  assert (znth data ((32 + 2 * i) / 8) / 2 ^ ((32 + 2 * i) mod 8) mod 4 = index2 data 4 i) as ->.
  { unfold index2. replace ((32 + 2 * i) / 8) with (4 + i / 4) by dlia.
    replace ((32 + 2 * i) mod 8) with (2 * (i mod 4)) by dlia. rewrite Z.pow_mul_r by dlia. reflexivity. }
  replace (32 + 2 * i + 2) with (32 + 2 * (i + 1)) by ring.
  unfold atc_rgb4_texel, atc_rgb, atc_mode. change (0 + 2) with 2. change (0 + 4) with 4.
  fold c0 c1. specialize (Hix i Hi).
  set (s := index2 data 4 i) in *. clearbody s.
  rewrite ua_ok by lia; cbn [bind].
  rewrite <- color_rgba.
  enum s Hix; reflexivity.
Qed.

Lemma atc_rgb_parts dark b o t a : bytes b -> is_byte a ->
  (forall x y, is_byte (dark x y)) ->
  exists r g bl, is_byte r /\ is_byte g /\ is_byte bl /\
    forall a, atc_rgb dark b o t a = rgba r g bl a.
Proof.
  intros Hb Ha Hdark. pose proof (le16_bound b o Hb) as H0. pose proof (le16_bound b (o + 2) Hb) as H2.
  pose proof (rgb565_spec _ H2) as (_ & R1 & G1 & B1).
  assert (forall mode x y s, is_byte x -> is_byte y -> is_byte (atc_mix dark mode x y s)) as M.
  { unfold is_byte, atc_mix in *; intros. destruct mode, (s =? 0), (s =? 1), (s =? 2); try lia; auto; dlia. }
  unfold atc_rgb. do 3 eexists. repeat split; try reflexivity; apply M; auto;
    unfold is_byte, atc_b0, atc_g0, atc_r0, rep5; dlia.
Qed.

Lemma atc_dark_code_byte x y : is_byte (atc_dark_code x y).
Proof. unfold is_byte, atc_dark_code. apply Z.mod_pos_bound; lia. Qed.

Lemma atc_shift dark b t a : 0 <= t < 16 -> atc_rgb dark (skipn 8 b) 0 t a = atc_rgb dark b 8 t a.
Proof.
  intros Ht. unfold atc_rgb, atc_mode, le16, index2. rewrite !znth_skipn by dlia.
  change (Z.of_nat 8 + 0) with 8. change (Z.of_nat 8 + (0 + 1)) with (8 + 1).
  change (Z.of_nat 8 + (0 + 2)) with (8 + 2). change (Z.of_nat 8 + (0 + 2 + 1)) with (8 + 2 + 1).
  replace (Z.of_nat 8 + (0 + 4 + t / 4)) with (8 + 4 + t / 4) by lia. auto.
Qed.

Theorem atc_rgba8_block_gen m data outbuf : bytes data -> 16 <= zlen data -> 16 <= zlen outbuf ->
  Forall is_u32 outbuf ->
  decode_atc_rgba8_block m data outbuf =
  Ok (tab (zlen outbuf) (fun t => if t <? 16 then atc_rgba8_texel atc_dark_code data t
                                  else set_chan 3 (znth outbuf t) (interp8 data 0 t))).
Proof.
  intros Hb Hd Ho Hu. unfold decode_atc_rgba8_block.
  rewrite slice_from_ok by lia; cbn [bind]. change (Z.to_nat 8) with 8%nat.
  rewrite atc_rgb4_block_ok by (try apply bytes_skipn; auto; rewrite zlen_skipn; lia); cbn [bind].
  assert (is_byte 255) as B255 by (unfold is_byte; lia).
  rewrite bc3_alpha_ok; auto; try lia.
  - f_equal. change 16%nat with (Z.to_nat 16). rewrite zlen_tab_app by lia.
    apply tab_ext; intros t Ht. destruct (Z.ltb_spec t 16).
    + rewrite znth_tab_app by lia.
      unfold atc_rgb4_texel, atc_rgba8_texel. rewrite atc_shift by lia.
      destruct (atc_rgb_parts atc_dark_code data 8 t 255 Hb B255 atc_dark_code_byte)
        as (r & g & bl & R & G & B & E). rewrite !E. apply set_chan_3; auto.
    + rewrite znth_app2 by (rewrite zlen_tab; lia). rewrite zlen_tab, znth_skipn by lia.
      do 2 f_equal; lia.
  - apply forall_tab_app; [lia| |apply forall_skipn; auto].
    intros i Hi. unfold atc_rgb4_texel.
    destruct (atc_rgb_parts atc_dark_code (skipn 8 data) 0 i 255) as (r & g & bl & R & G & B & E);
      auto using bytes_skipn, atc_dark_code_byte.
    rewrite E. apply rgba_u32; auto.
Qed.
