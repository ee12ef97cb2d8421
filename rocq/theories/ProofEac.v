(** * EAC alpha and channel blocks *)
From Verif Require Import Base BaseLemmas BitLemmas ModelColor SpecImage ProofDecoder SpecBc ProofBc
  ProofBcImage ProofBlock ModelEtc SpecEtc FieldLemmas ProofEtc ProofEtc2.

(** Modifier rows have eight entries of magnitude at most 15. *)
Lemma alpha_row r : 0 <= r < 16 -> exists row, idx ETC2_ALPHA_MOD_TABLE r = Ok row /\ zlen row = 8 /\
  forall i, 0 <= i < 8 -> znth row i = znth (nth (Z.to_nat r) eac_modifiers []) i /\ -15 <= znth row i <= 15.
Proof.
  intros H; enum r H; eexists; (split; [reflexivity|]); (split; [reflexivity|]);
  intros i Hi; enum i Hi; vm_compute; repeat split; congruence.
Qed.

Lemma shr3_pow x i : 0 <= i -> Z.shiftr (x / 2 ^ (3 * i)) 3 = x / 2 ^ (3 * (i + 1)).
Proof.
  intros. rewrite shr_div by lia. rewrite <- div_pow_split by lia. do 2 f_equal. lia.
Qed.

Lemma eac_index_of w i : 0 <= i < 16 -> w / 2 ^ (3 * i) mod 8 = eac_index w (15 - pixel i).
Proof.
  intros Hi. unfold eac_index, field.
  assert (pixel (15 - pixel i) = 15 - i) as -> by (unfold pixel; dlia).
  replace (45 - 3 * (15 - i)) with (3 * i) by lia.
  replace (47 - 3 * (15 - i) - 3 * i + 1) with 3 by lia. reflexivity.
Qed.
Lemma eac_index_range w t : 0 <= t < 16 -> 0 <= eac_index w t < 8.
Proof.
  intros Ht. unfold eac_index, field. replace (47 - 3 * pixel t - (45 - 3 * pixel t) + 1) with 3 by lia.
  apply Z.mod_pos_bound; lia.
Qed.

Lemma slice8_be data : bytes data -> 8 <= zlen data -> exists s, slice data 0 8 = Ok s /\
  be_bytes s = etc_word data 0 /\ le_bytes s = eac_swapped data 0.
Proof.
  intros Hb Hd. rewrite slice_znth by lia. eexists; split; [reflexivity|].
  change (zrange 0 8) with [0; 1; 2; 3; 4; 5; 6; 7]. cbn [map].
  unfold be_bytes, etc_word, eac_swapped. cbn [fold_left le_bytes].
  change (0 + 1) with 1; change (0 + 2) with 2; change (0 + 3) with 3; change (0 + 4) with 4;
  change (0 + 5) with 5; change (0 + 6) with 6; change (0 + 7) with 7.
  split; ring.
Qed.

Section Fields.
Context (b : list Z) (Hb : bytes b).
Let w := etc_word b 0.
Lemma eac_base_ok : eac_base w = znth b 0.
Proof. unfold eac_base, w. wf Hb b 0 63 56 7 0 0. rewrite Z.pow_0_r, Z.div_1_r. apply Z.mod_small. apply bytes_znth; auto. Qed.
Lemma eac_mult_ok : eac_multiplier w = Z.shiftr (znth b 1) 4.
Proof. unfold eac_multiplier, w. wf Hb b 0 55 52 6 4 1. pose proof (byte_znth b 1 Hb) as H. generalize dependent (znth b 1); intros d H. bytesweep d H. Qed.
Lemma eac_row_ok : field w 51 48 = Z.land (znth b 1) 0xf.
Proof. unfold w. wf Hb b 0 51 48 6 0 1. pose proof (byte_znth b 1 Hb) as H. generalize dependent (znth b 1); intros d H. bytesweep d H. Qed.
Lemma eac_scale_ok : (let mult := Z.land (Z.shiftr (znth b 1) 1) 0x78 in if mult =? 0 then 1 else mult) = eac_scale w.
Proof.
  unfold eac_scale. rewrite eac_mult_ok. pose proof (byte_znth b 1 Hb) as H. generalize dependent (znth b 1); intros d H.
  bytesweep d H.
Qed.
Lemma eac_zero_ok : (0 <? Z.land (znth b 1) 0xf0) = negb (eac_multiplier w =? 0).
Proof. rewrite eac_mult_ok. pose proof (byte_znth b 1 Hb) as H. generalize dependent (znth b 1); intros d H. bytesweepb d H. Qed.
End Fields.
Lemma eac_multiplier_range w : 0 <= eac_multiplier w < 16.
Proof. apply (field_range w 55 52); lia. Qed.

(** Replacing the alpha byte *)
Definition with_alpha (p a : Z) : Z := p mod 16777216 + a * 16777216.
Lemma alpha_or p a : is_byte a -> Z.lor (Z.land p 0x00ffffff) (a * 16777216) = with_alpha p a.
Proof.
  intros Ha. rewrite land_low24. change 16777216 with (2 ^ 24) at 1.
  rewrite lor_comm_add by (try lia; apply Z.mod_pos_bound; lia). unfold with_alpha. auto.
Qed.
Lemma ushl24 m a : is_byte a -> ushl m 32 a 24 = Ok (a * 16777216).
Proof. intros H. rewrite ushl_ok by lia. unfold is_byte in H. rewrite Z.mod_small; [auto|]. change (2 ^ 24) with 16777216. change (2 ^ 32) with 4294967296. lia. Qed.

Lemma etc2_a8_block_ok m data outbuf : bytes data -> 8 <= zlen data -> 16 <= zlen outbuf ->
  decode_etc2_a8_block m data outbuf =
  Ok (tab 16 (fun t => with_alpha (znth outbuf t) (eac_alpha data 0 t)) ++ skipn 16 outbuf).
Proof.
  intros Hb Hd Ho. unfold decode_etc2_a8_block, eac_alpha. cbv zeta.
  rewrite idx_ok by lia. cbn [bind].
  rewrite eac_zero_ok, <- eac_row_ok, <- eac_mult_ok by auto.
  set (w := etc_word data 0) in *.
  pose proof (eac_multiplier_range w) as Hm.
  destruct (Z.eqb_spec (eac_multiplier w) 0) as [Z0|NZ]; cbn [negb].
  - rewrite idx_ok by lia. cbn [bind]. rewrite ushl24 by auto. cbn [bind].
    replace (Z.min 16 (zlen outbuf)) with 16 by lia.
    pose proof (rewrite_loop (fun t p => with_alpha p (znth data 0)) (fun _ => tt) outbuf 16) as L. cbv beta in L.
    rewrite L; [|lia|].
    + cbn [bind]. apply ok_tab_app. intros t Ht. f_equal. rewrite Z0, Z.mul_0_r, Z.add_0_r.
      unfold w. rewrite eac_base_ok by auto. symmetry; apply clamp8_id; auto.
    + intros i l Hi Hl E. rewrite idx_ok by lia. cbn [bind]. rewrite E, alpha_or by auto. reflexivity.
  - destruct (alpha_row (field w 51 48)) as (row & -> & Lr & Nr); [apply (field_range w 51 48); lia|].
    cbn [bind]. destruct (slice8_be data Hb Hd) as (s & -> & Es & _). cbn [bind]. rewrite Es. fold w.
    pose proof (perm_loop (fun i => 15 - pixel i) (fun i => 15 - pixel i)
      (fun t p => with_alpha p (clamp8 (eac_base w + eac_modifier w (eac_index w t) * eac_multiplier w)))
      (fun i => w / 2 ^ (3 * i)) outbuf 16) as L.
    cbv beta in L. change (2 ^ (3 * 0)) with 1 in L. rewrite Z.div_1_r in L.
    rewrite L; [reflexivity|lia|apply rev_perm|apply rev_perm|]. clear L.
    intros i l Hi Hl E.
    rewrite idx_ok by lia. cbn [bind]. rewrite land7, eac_index_of by auto.
    destruct (rev_perm i Hi) as [Pi _].
    pose proof (eac_index_range w _ Pi) as Hx.
    destruct (Nr _ Hx) as [Nx Rx].
    rewrite idx_ok by lia. cbn [bind].
    pose proof (bytes_znth data 0 Hb).
    assert (-225 <= eac_multiplier w * znth row (eac_index w (15 - pixel i)) <= 225) by nia.
    rewrite ia_ok by (change (2 ^ (32 - 1)) with 2147483648; lia). cbn [bind].
    rewrite ia_ok by (change (2 ^ (32 - 1)) with 2147483648; lia). cbn [bind].
    rewrite clamp_ok. rewrite ushl24 by apply clamp8_byte. cbn [bind].
    rewrite write_order_rev by auto. cbn [bind].
    rewrite idx_ok by lia. cbn [bind]. rewrite E, alpha_or by apply clamp8_byte.
    rewrite shr3_pow by lia.
    unfold eac_modifier. rewrite <- Nx. rewrite (Z.mul_comm (znth row _)).
    assert (eac_base w = znth data 0) as -> by (apply eac_base_ok; auto). reflexivity.
Qed.

(** ** ETC2 RGBA8 *)
Lemma etc_word_shift b : etc_word (skipn 8 b) 0 = etc_word b 8.
Proof. unfold etc_word. rewrite !znth_skipn by lia. reflexivity. Qed.

Lemma add_rgb_parts c d a : exists r g b, is_byte r /\ is_byte g /\ is_byte b /\ add_rgb c d a = rgba r g b a.
Proof. do 3 eexists. do 3 (split; [apply clamp8_byte|]). reflexivity. Qed.

Lemma etc2_texel_parts b o t : exists r g bl, is_byte r /\ is_byte g /\ is_byte bl /\ etc2_texel b o t = rgba r g bl 255.
Proof.
  unfold etc2_texel, etc_indiv_texel, t_texel, h_texel, planar_texel, etc_diff_texel. cbv zeta.
  destruct (negb _); [apply add_rgb_parts|].
  destruct (overflows _ 0); [repeat match goal with |- context [if ?c then _ else _] => destruct c end; apply add_rgb_parts|].
  destruct (overflows _ 1); [apply add_rgb_parts|].
  destruct (overflows _ 2); [|apply add_rgb_parts].
  do 3 eexists. do 3 (split; [apply clamp8_byte|]). reflexivity.
Qed.

Lemma with_alpha_rgba r g b a a' : is_byte r -> is_byte g -> is_byte b -> with_alpha (rgba r g b a) a' = rgba r g b a'.
Proof.
  unfold with_alpha, rgba, is_byte; intros. f_equal.
  symmetry; apply Z.mod_unique with a; lia.
Qed.

Lemma etc2_rgba8_texel_parts b t : exists r g bl, is_byte r /\ is_byte g /\ is_byte bl /\
  etc2_texel b 8 t = rgba r g bl 255 /\ etc2_rgba8_texel b t = rgba r g bl (eac_alpha b 0 t).
Proof.
  destruct (etc2_texel_parts b 8 t) as (r & g & bl & R & G & B & E). exists r, g, bl.
  do 3 (split; [auto|]). split; [auto|]. unfold etc2_rgba8_texel. rewrite E. unfold rgba; lia.
Qed.

Lemma etc2_rgba8_block_ok m data outbuf : bytes data -> 16 <= zlen data -> 16 <= zlen outbuf ->
  decode_etc2_rgba8_block m data outbuf = Ok (tab 16 (etc2_rgba8_texel data) ++ skipn 16 outbuf).
Proof.
  intros Hb Hd Ho. unfold decode_etc2_rgba8_block.
  rewrite slice_from_ok by lia. cbn [bind]. change (Z.to_nat 8) with 8%nat.
  rewrite etc2_rgb_block_ok by (auto using bytes_skipn; rewrite ?zlen_skipn; lia). cbn [bind].
  rewrite etc2_a8_block_ok; auto; try lia.
  2:{ change 16%nat with (Z.to_nat 16). rewrite zlen_tab_app; lia. }
  pose proof (skipn_tab_app 16 (etc2_texel (skipn 8 data) 0) (skipn 16 outbuf) ltac:(lia)) as S.
  change (Z.to_nat 16) with 16%nat in S. rewrite S.
  apply ok_tab_app. intros t Ht. rewrite znth_tab_app by auto.
  destruct (etc2_rgba8_texel_parts data t) as (r & g & bl & R & G & B & E1 & ->).
  unfold etc2_texel in *. rewrite etc_word_shift, E1. apply with_alpha_rgba; auto.
Qed.

(** ** EAC R11 and RG11 *)
(** Red (ch = 2) or green (ch = 1) value put into a pixel whose channel is zero. *)
Definition or_chan (ch p v : Z) : Z := Z.lor p (v * 2 ^ (8 * ch)).

Lemma or_red g b a v : is_byte g -> is_byte b -> is_byte a -> is_byte v ->
  or_chan 2 (rgba 0 g b a) v = rgba v g b a.
Proof.
  intros Hg Hb Ha Hv. unfold or_chan, rgba. change (2 ^ (8 * 2)) with 65536.
  replace (b + g * 256 + 0 * 65536 + a * 16777216) with (le_bytes [b; g; 0; a]) by (cbn [le_bytes]; ring).
  replace (v * 65536) with (le_bytes [0; 0; v; 0]) by (cbn [le_bytes]; ring).
  rewrite lor_word by auto using is_byte_0. rewrite !Z.lor_0_r, Z.lor_0_l. cbn [le_bytes]. ring.
Qed.
Lemma or_green r b a v : is_byte r -> is_byte b -> is_byte a -> is_byte v ->
  or_chan 1 (rgba r 0 b a) v = rgba r v b a.
Proof.
  intros Hg Hb Ha Hv. unfold or_chan, rgba. change (2 ^ (8 * 1)) with 256.
  replace (b + 0 * 256 + r * 65536 + a * 16777216) with (le_bytes [b; 0; r; a]) by (cbn [le_bytes]; ring).
  replace (v * 256) with (le_bytes [0; v; 0; 0]) by (cbn [le_bytes]; ring).
  rewrite lor_word by auto using is_byte_0. rewrite !Z.lor_0_r, Z.lor_0_l. cbn [le_bytes]. ring.
Qed.

Definition eac_gen_red (base offset : Z) (b : list Z) (t : Z) : Z :=
  let w := etc_word b 0 in
  clamp_to 0 2047 (base * 8 + eac_modifier w (eac_index (eac_swapped b 0) t) * eac_scale w + offset) / 8.

Lemma eac_gen_byte base offset b t : is_byte (eac_gen_red base offset b t).
Proof. unfold is_byte, eac_gen_red, clamp_to. cbv zeta. dlia. Qed.

Lemma eac_clamp v : (if v <? 0 then 0 else if 2048 <=? v then 255 else u8 (Z.shiftr v 3)) = clamp_to 0 2047 v / 8.
Proof.
  unfold clamp_to, u8. destruct (Z.ltb_spec v 0); [rewrite Z.max_l by lia; reflexivity|].
  destruct (Z.leb_spec 2048 v).
  - rewrite Z.min_l by lia. reflexivity.
  - rewrite Z.min_r, Z.max_r by lia. rewrite shr_div by lia. change (2 ^ 3) with 8. change (2 ^ 8) with 256. dlia.
Qed.

Lemma eac_gen_ok m base offset data ch outbuf : bytes data -> 8 <= zlen data -> 16 <= zlen outbuf ->
  -128 <= base < 256 -> 0 <= offset <= 1023 -> 1 <= ch <= 2 ->
  decode_eac_gen m base offset data ch outbuf =
  Ok (tab 16 (fun t => or_chan ch (znth outbuf t) (eac_gen_red base offset data t)) ++ skipn 16 outbuf).
Proof.
  intros Hb Hd Ho Hbase Hoff Hch. unfold decode_eac_gen.
  rewrite idx_ok by lia. cbn [bind].
  pose proof (eac_scale_ok data Hb) as Es. cbv zeta in Es. rewrite Es. clear Es.
  rewrite <- eac_row_ok by auto.
  set (w := etc_word data 0) in *.
  destruct (alpha_row (field w 51 48)) as (row & -> & Lr & Nr); [apply (field_range w 51 48); lia|].
  cbn [bind]. destruct (slice8_be data Hb Hd) as (s & -> & _ & Es). cbn [bind]. rewrite Es.
  set (L64 := eac_swapped data 0).
  pose proof (perm_loop (fun i => 15 - pixel i) (fun i => 15 - pixel i)
      (fun t p => or_chan ch p (eac_gen_red base offset data t))
      (fun i => (L64 / 2 ^ (3 * i),
                 if i =? 0 then [0; 0; 0; 0]
                 else replace_nth (Z.to_nat ch) (eac_gen_red base offset data (15 - pixel (i - 1))) [0; 0; 0; 0]))
      outbuf 16) as L.
  cbv beta in L. change (2 ^ (3 * 0)) with 1 in L. rewrite Z.div_1_r in L. cbn [Z.eqb] in L.
  rewrite L; [reflexivity|lia|apply rev_perm|apply rev_perm|]. clear L.
  intros i l Hi Hl E.
  rewrite ia_ok by (change (2 ^ (32 - 1)) with 2147483648; lia). cbn [bind].
  rewrite land7, eac_index_of by auto.
  destruct (rev_perm i Hi) as [Pi _].
  pose proof (eac_index_range L64 _ Pi) as Hx.
  destruct (Nr _ Hx) as [Nx Rx].
  rewrite idx_ok by lia. cbn [bind].
  pose proof (eac_multiplier_range w).
  assert (1 <= eac_scale w <= 120) as Hsc.
  { unfold eac_scale. destruct (Z.eqb_spec (eac_multiplier w) 0); lia. }
  assert (-1800 <= eac_scale w * znth row (eac_index L64 (15 - pixel i)) <= 1800) by nia.
  rewrite ia_ok by (change (2 ^ (32 - 1)) with 2147483648; lia). cbn [bind].
  rewrite ia_ok by (change (2 ^ (32 - 1)) with 2147483648; lia). cbn [bind].
  rewrite ia_ok by (change (2 ^ (32 - 1)) with 2147483648; lia). cbn [bind].
  rewrite eac_clamp.
  assert (clamp_to 0 2047 (base * 8 + eac_scale w * znth row (eac_index L64 (15 - pixel i)) + offset) / 8 =
          eac_gen_red base offset data (15 - pixel i)) as Ev.
  { unfold eac_gen_red. cbv zeta. fold w. fold L64. unfold eac_modifier. rewrite <- Nx.
    rewrite (Z.mul_comm (znth row _)). reflexivity. }
  rewrite Ev. set (v := eac_gen_red base offset data (15 - pixel i)).
  assert (upd (if i =? 0 then [0; 0; 0; 0]
     else replace_nth (Z.to_nat ch) (eac_gen_red base offset data (15 - pixel (i - 1))) [0; 0; 0; 0]) ch v =
     Ok (replace_nth (Z.to_nat ch) v [0; 0; 0; 0])) as ->.
  { rewrite upd_ok.
    - destruct (i =? 0); rewrite ?replace_nth_twice; reflexivity.
    - destruct (i =? 0); rewrite ?zlen_replace_nth; change (zlen [0; 0; 0; 0]) with 4; lia. }
  cbn [bind]. rewrite write_order_rev by auto. cbn [bind].
  rewrite idx_ok by lia. cbn [bind]. rewrite E, shr3_pow by lia.
  assert (le_bytes (replace_nth (Z.to_nat ch) v [0; 0; 0; 0]) = v * 2 ^ (8 * ch)) as ->.
  { assert (ch = 1 \/ ch = 2) as [-> | ->] by lia;
    [change (Z.to_nat 1) with 1%nat|change (Z.to_nat 2) with 2%nat]; cbn [replace_nth le_bytes];
    [change (2 ^ (8 * 1)) with 256|change (2 ^ (8 * 2)) with 65536]; ring. }
  fold (or_chan ch (znth outbuf (15 - pixel i)) v).
  destruct (Z.eqb_spec (i + 1) 0); [lia|].
  replace (i + 1 - 1) with i by lia. fold v. reflexivity.
Qed.

Lemma fill16_ok outbuf : 16 <= zlen outbuf ->
  fill16 outbuf = Ok (tab 16 (fun _ => rgba 0 0 0 255) ++ skipn 16 outbuf).
Proof.
  intros Ho. unfold fill16. rewrite slice_ok by lia. cbn [bind].
  rewrite copy_into_ok; [|lia|change (zlen (repeat (color 0 0 0 255) 16)) with 16; lia].
  reflexivity.
Qed.

(** Generic form of the four block functions *)
Definition eac_r_block m base offset (data outbuf : list Z) : res (list Z) :=
  let* outbuf := fill16 outbuf in decode_eac_gen m base offset data 2 outbuf.

Lemma eac_r_ok m base offset data outbuf : bytes data -> 8 <= zlen data -> 16 <= zlen outbuf ->
  -128 <= base < 256 -> 0 <= offset <= 1023 ->
  eac_r_block m base offset data outbuf =
  Ok (tab 16 (fun t => rgba (eac_gen_red base offset data t) 0 0 255) ++ skipn 16 outbuf).
Proof.
  intros. unfold eac_r_block. rewrite fill16_ok by auto. cbn [bind].
  rewrite eac_gen_ok; auto; try lia.
  2:{ change 16%nat with (Z.to_nat 16). rewrite zlen_tab_app; lia. }
  pose proof (skipn_tab_app 16 (fun _ => rgba 0 0 0 255) (skipn 16 outbuf) ltac:(lia)) as S.
  change (Z.to_nat 16) with 16%nat in S. rewrite S.
  apply ok_tab_app. intros t Ht. rewrite znth_tab_app by auto.
  apply or_red; auto using eac_gen_byte, is_byte_0, is_byte_255.
Qed.

Lemma eac_rg_ok m base offset base' data outbuf : bytes data -> 16 <= zlen data -> 16 <= zlen outbuf ->
  -128 <= base < 256 -> -128 <= base' < 256 -> 0 <= offset <= 1023 ->
  (let* outbuf := eac_r_block m base offset data outbuf in
   decode_eac_gen m base' offset (skipn 8 data) 1 outbuf) =
  Ok (tab 16 (fun t => rgba (eac_gen_red base offset data t) (eac_gen_red base' offset (skipn 8 data) t) 0 255)
      ++ skipn 16 outbuf).
Proof.
  intros. rewrite eac_r_ok by (auto; lia). cbn [bind].
  rewrite eac_gen_ok; auto using bytes_skipn; try (rewrite ?zlen_skipn; lia).
  2:{ change 16%nat with (Z.to_nat 16). rewrite zlen_tab_app; lia. }
  pose proof (skipn_tab_app 16 (fun t => rgba (eac_gen_red base offset data t) 0 0 255) (skipn 16 outbuf) ltac:(lia)) as S.
  change (Z.to_nat 16) with 16%nat in S. rewrite S.
  apply ok_tab_app. intros t Ht. rewrite znth_tab_app by auto.
  apply or_green; auto using eac_gen_byte, is_byte_0, is_byte_255.
Qed.

Lemma gen_unsigned b t : bytes b -> eac_gen_red (znth b 0) 4 b t = eac_code_red b 0 t.
Proof.
  intros Hb. unfold eac_gen_red, eac_code_red, eac_value11. cbv zeta.
  rewrite eac_base_ok by auto. do 2 f_equal. lia.
Qed.
Lemma swrap8 d : is_byte d -> swrap 8 d = signed8 d.
Proof. intros H. bytesweep d H. Qed.
Lemma gen_signed b t : bytes b -> eac_gen_red (swrap 8 (znth b 0)) 1023 b t = eac_code_red_s b 0 t.
Proof.
  intros Hb. unfold eac_gen_red, eac_code_red_s. cbv zeta.
  rewrite eac_base_ok, swrap8 by auto. reflexivity.
Qed.
Lemma signed8_range d : is_byte d -> -128 <= signed8 d < 256.
Proof. unfold is_byte, signed8. intros. destruct (Z.leb_spec 128 d); lia. Qed.
Lemma eac_swapped_shift b : eac_swapped (skipn 8 b) 0 = eac_swapped b 8.
Proof. unfold eac_swapped. rewrite !znth_skipn by lia. reflexivity. Qed.
Lemma code_red_shift b t : eac_code_red (skipn 8 b) 0 t = eac_code_red b 8 t.
Proof. unfold eac_code_red. rewrite etc_word_shift, eac_swapped_shift. auto. Qed.
Lemma code_red_s_shift b t : eac_code_red_s (skipn 8 b) 0 t = eac_code_red_s b 8 t.
Proof. unfold eac_code_red_s. rewrite etc_word_shift, eac_swapped_shift. auto. Qed.

Lemma eac_red_bytes b o t : is_byte (eac_code_red b o t) /\ is_byte (eac_code_red_s b o t).
Proof. unfold is_byte, eac_code_red, eac_code_red_s, eac_value11, clamp_to. cbv zeta. split; dlia. Qed.

Lemma eacr_block_ok m data outbuf : bytes data -> 8 <= zlen data -> 16 <= zlen outbuf ->
  decode_eacr_block m data outbuf = Ok (tab 16 (eacr_code_texel data) ++ skipn 16 outbuf).
Proof.
  intros Hb Hd Ho. unfold decode_eacr_block, decode_eac_block. rewrite idx_ok by lia. cbn [bind].
  pose proof (bytes_znth data 0 Hb).
  change (eac_r_block m (znth data 0) 4 data outbuf = Ok (tab 16 (eacr_code_texel data) ++ skipn 16 outbuf)).
  rewrite eac_r_ok by (auto; lia). apply ok_tab_app. intros t Ht. unfold eacr_code_texel.
  rewrite gen_unsigned by auto. reflexivity.
Qed.
Lemma eacr_signed_block_ok m data outbuf : bytes data -> 8 <= zlen data -> 16 <= zlen outbuf ->
  decode_eacr_signed_block m data outbuf = Ok (tab 16 (eacr_s_code_texel data) ++ skipn 16 outbuf).
Proof.
  intros Hb Hd Ho. unfold decode_eacr_signed_block, decode_eac_signed_block. rewrite idx_ok by lia. cbn [bind].
  change (eac_r_block m (swrap 8 (znth data 0)) 1023 data outbuf = Ok (tab 16 (eacr_s_code_texel data) ++ skipn 16 outbuf)).
  rewrite eac_r_ok by (auto; try lia; rewrite swrap8; auto; apply signed8_range; auto).
  apply ok_tab_app. intros t Ht. unfold eacr_s_code_texel.
  rewrite gen_signed by auto. reflexivity.
Qed.
Lemma bind_assoc {A B C} (x : res A) (f : A -> res B) (g : B -> res C) :
  bind (bind x f) g = bind x (fun a => bind (f a) g).
Proof. destruct x; reflexivity. Qed.

Lemma eacrg_block_ok m data outbuf : bytes data -> 16 <= zlen data -> 16 <= zlen outbuf ->
  decode_eacrg_block m data outbuf = Ok (tab 16 (eacrg_code_texel data) ++ skipn 16 outbuf).
Proof.
  intros Hb Hd Ho. unfold decode_eacrg_block, decode_eac_block. rewrite idx_ok by lia. cbn [bind].
  rewrite slice_from_ok by lia. cbn [bind]. change (Z.to_nat 8) with 8%nat.
  rewrite idx_ok by (rewrite zlen_skipn; lia). cbn [bind].
  pose proof (bytes_znth data 0 Hb). pose proof (bytes_znth (skipn 8 data) 0 (bytes_skipn _ _ Hb)).
  pose proof (eac_rg_ok m (znth data 0) 4 (znth (skipn 8 data) 0) data outbuf Hb Hd Ho ltac:(lia) ltac:(lia) ltac:(lia)) as L.
  unfold eac_r_block in L. rewrite bind_assoc in L. rewrite L. apply ok_tab_app. intros t Ht.
  unfold eacrg_code_texel. rewrite !gen_unsigned, code_red_shift by auto using bytes_skipn. reflexivity.
Qed.
Lemma eacrg_signed_block_ok m data outbuf : bytes data -> 16 <= zlen data -> 16 <= zlen outbuf ->
  decode_eacrg_signed_block m data outbuf = Ok (tab 16 (eacrg_s_code_texel data) ++ skipn 16 outbuf).
Proof.
  intros Hb Hd Ho. unfold decode_eacrg_signed_block, decode_eac_signed_block. rewrite idx_ok by lia. cbn [bind].
  rewrite slice_from_ok by lia. cbn [bind]. change (Z.to_nat 8) with 8%nat.
  rewrite idx_ok by (rewrite zlen_skipn; lia). cbn [bind].
  pose proof (signed8_range _ (byte_znth data 0 Hb)) as R0.
  pose proof (signed8_range _ (byte_znth (skipn 8 data) 0 (bytes_skipn _ _ Hb))) as R1.
  rewrite <- swrap8 in R0, R1 by auto using bytes_skipn.
  pose proof (eac_rg_ok m (swrap 8 (znth data 0)) 1023 (swrap 8 (znth (skipn 8 data) 0)) data outbuf Hb Hd Ho R0 R1 ltac:(lia)) as L.
  unfold eac_r_block in L. rewrite bind_assoc in L. rewrite L. apply ok_tab_app. intros t Ht.
  unfold eacrg_s_code_texel. rewrite !gen_signed, code_red_s_shift by auto using bytes_skipn. reflexivity.
Qed.
