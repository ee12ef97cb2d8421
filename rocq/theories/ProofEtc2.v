(** * ETC1, ETC2 and EAC block functions *)
From Verif Require Import Base BaseLemmas BitLemmas ModelColor SpecImage ProofDecoder SpecBc ProofBc
  ProofBcImage ProofBlock ModelEtc SpecEtc FieldLemmas ProofEtc.

(** ** T and H colour sets *)
Lemma rep4_byte v : 0 <= v < 16 -> is_byte (rep4 v).
Proof. unfold is_byte, rep4; lia. Qed.

Lemma etc_distance_range i : 0 <= i < 8 -> 0 <= znth etc_distance i <= 64.
Proof. intros H; enum i H; vm_compute; repeat split; congruence. Qed.

Ltac frange w hi lo := pose proof (field_range w hi lo ltac:(lia));
  repeat match goal with H : _ <= field _ _ _ < ?e |- _ =>
    match e with 2 ^ _ => let n := eval cbv in e in change e with n in H end end.

Lemma t_base_byte w ch : is_byte (t_base1 w ch) /\ is_byte (t_base2 w ch).
Proof.
  unfold t_base1, t_base2. frange w 60 59; frange w 57 56; frange w 55 52; frange w 51 48;
  frange w 47 44; frange w 43 40; frange w 39 36.
  destruct (ch =? 0), (ch =? 1); split; apply rep4_byte; lia.
Qed.
Lemma t_distance_range w : 0 <= t_distance w <= 64.
Proof. unfold t_distance. frange w 35 34; frange w 32 32. apply etc_distance_range; lia. Qed.
Lemma h_distance_range w : 0 <= h_distance w <= 64.
Proof.
  unfold h_distance. frange w 34 34; frange w 32 32. apply etc_distance_range.
  destruct (_ <=? _); lia.
Qed.

Lemma t_set_ok m w :
  t_set m (t_base1 w 0, t_base1 w 1, t_base1 w 2) (t_base2 w 0, t_base2 w 1, t_base2 w 2) (t_distance w) =
  Ok [add_rgb (t_base1 w) 0 255; add_rgb (t_base2 w) (t_distance w) 255; add_rgb (t_base2 w) 0 255;
      add_rgb (t_base2 w) (- t_distance w) 255].
Proof.
  pose proof (t_distance_range w). unfold t_set.
  rewrite ia_ok by (change (2 ^ (16 - 1)) with 32768; lia). cbn [bind].
  unfold applicate_color.
  rewrite !applicate_ok by (try lia; intros; apply t_base_byte). cbn [bind].
  rewrite !applicate_raw_ok by (intros; apply t_base_byte). reflexivity.
Qed.

Lemma h_set_ok m b w : w = etc_word b 0 ->
  h_set m (rep4 (h_color1 w 0), rep4 (h_color1 w 1), rep4 (h_color1 w 2))
    (rep4 (h_color2 w 0), rep4 (h_color2 w 1), rep4 (h_color2 w 2)) (h_distance w) =
  Ok [add_rgb (fun ch => rep4 (h_color1 w ch)) (h_distance w) 255;
      add_rgb (fun ch => rep4 (h_color1 w ch)) (- h_distance w) 255;
      add_rgb (fun ch => rep4 (h_color2 w ch)) (h_distance w) 255;
      add_rgb (fun ch => rep4 (h_color2 w ch)) (- h_distance w) 255].
Proof.
  intros Ew. pose proof (h_distance_range w). unfold h_set.
  rewrite ia_ok by (change (2 ^ (16 - 1)) with 32768; lia). cbn [bind].
  unfold applicate_color.
  assert (forall ch, is_byte (rep4 (h_color1 w ch)) /\ is_byte (rep4 (h_color2 w ch))) as B.
  { intros ch. subst w. destruct (h_color_range b ch). split; apply rep4_byte; auto. }
  rewrite !(applicate_ok m (fun ch => rep4 (h_color1 w ch))) by (try lia; intros; apply B). cbn [bind].
  rewrite !(applicate_ok m (fun ch => rep4 (h_color2 w ch))) by (try lia; intros; apply B). cbn [bind].
  reflexivity.
Qed.

(** ** Planar mode *)
Lemma rep6_byte v : 0 <= v < 64 -> is_byte (rep6 v).
Proof. unfold is_byte, rep6; intros. dlia. Qed.
Lemma rep7_byte v : 0 <= v < 128 -> is_byte (rep7 v).
Proof. unfold is_byte, rep7; intros. dlia. Qed.

Lemma planar_bytes w ch : is_byte (planar_origin w ch) /\ is_byte (planar_horiz w ch) /\ is_byte (planar_vert w ch).
Proof.
  unfold planar_origin, planar_horiz, planar_vert.
  frange w 62 57; frange w 56 56; frange w 54 49; frange w 48 48; frange w 44 43; frange w 41 39;
  frange w 38 34; frange w 32 32; frange w 31 25; frange w 24 19; frange w 18 13; frange w 12 6; frange w 5 0.
  destruct (ch =? 0), (ch =? 1); repeat split; first [apply rep6_byte|apply rep7_byte]; lia.
Qed.

Lemma planar_chan_ok m w ch x y : 0 <= x < 4 -> 0 <= y < 4 ->
  planar_chan m x y (planar_origin w ch) (planar_horiz w ch) (planar_vert w ch) = Ok (planar_value w ch x y).
Proof.
  intros Hx Hy. destruct (planar_bytes w ch) as (O & H & V). unfold planar_chan, planar_value.
  generalize dependent (planar_origin w ch); intros o O.
  generalize dependent (planar_horiz w ch); intros h H.
  generalize dependent (planar_vert w ch); intros v V.
  unfold is_byte in *.
  enum x Hx; enum y Hy;
  repeat (rewrite ia_ok by (change (2 ^ (32 - 1)) with 2147483648; lia); cbn [bind]);
  rewrite clamp_ok, shr_div by lia; reflexivity.
Qed.

Lemma planar_loop_ok m w outbuf : 16 <= zlen outbuf ->
  planar_loop m (planar_origin w 0, planar_origin w 1, planar_origin w 2)
    (planar_horiz w 0, planar_horiz w 1, planar_horiz w 2)
    (planar_vert w 0, planar_vert w 1, planar_vert w 2) outbuf =
  Ok (tab 16 (planar_texel w) ++ skipn 16 outbuf).
Proof.
  intros Ho. unfold planar_loop.
  set (St := fun n => (tab n (planar_texel w) ++ skipn (Z.to_nat n) outbuf, n)).
  match goal with |- bind (for_range 0 4 ?f _) _ = _ =>
    destruct (for_range_inv (fun y s => s = St (4 * y)) 0 4 f (outbuf, 0)) as (s & -> & ->) end.
  - lia.
  - reflexivity.
  - intros y s Hy ->.
    match goal with |- exists _, for_range 0 4 ?g _ = _ /\ _ =>
      destruct (for_range_inv (fun x s => s = St (4 * y + x)) 0 4 g (St (4 * y))) as (s & E & ->) end.
    + lia.
    + f_equal; lia.
    + intros x s Hx ->. unfold St at 1.
      rewrite !planar_chan_ok by auto. cbn [bind].
      rewrite upd_tab.
      * cbn [bind]. eexists; split; [reflexivity|]. unfold St. f_equal; [|lia].
        replace (4 * y + x + 1) with (4 * y + (x + 1)) by lia. reflexivity.
      * lia.
      * unfold planar_texel. rewrite color_rgba.
        replace ((4 * y + x) mod 4) with x by dlia. replace ((4 * y + x) / 4) with y by dlia. reflexivity.
    + exists (St (4 * (y + 1))). split; [|auto]. rewrite E. do 2 f_equal; lia.
  - reflexivity.
Qed.

(** ** Words *)
Lemma be16_low b : bytes b -> be_bytes [znth b 6; znth b 7] = etc_word b 0 mod 2 ^ 16.
Proof. intros. exact (word_low b 0 H). Qed.
Lemma be16_mid b : bytes b -> be_bytes [znth b 4; znth b 5] = etc_word b 0 / 2 ^ 16 mod 2 ^ 16.
Proof. intros. exact (word_mid b 0 H). Qed.

Lemma sub_table_ok w : exists table, idx ETC1_SUBBLOCK_TABLE (field w 32 32) = Ok table.
Proof.
  frange w 32 32. generalize dependent (field w 32 32); intros f F.
  enum f F; eexists; reflexivity.
Qed.

Lemma rep5_byte v : 0 <= v < 32 -> is_byte (rep5 v).
Proof. unfold is_byte, rep5; intros. dlia. Qed.
Lemma base5_range w ch : 0 <= ch < 3 -> 0 <= base5 w ch < 32.
Proof.
  intros H. unfold base5. pose proof (field_range w (63 - 8 * ch) (59 - 8 * ch) ltac:(lia)) as F.
  replace (63 - 8 * ch - (59 - 8 * ch) + 1) with 5 in F by lia. exact F.
Qed.
Lemma wrap_base_byte w s ch : 0 <= ch < 3 -> is_byte (wrap_base w s ch).
Proof.
  intros H. unfold wrap_base. destruct (s =? 0); apply rep5_byte.
  - apply base5_range; auto.
  - apply Z.mod_pos_bound; lia.
Qed.
Lemma indiv_base_byte w s ch : 0 <= ch < 3 -> is_byte (indiv_base w s ch).
Proof.
  intros H. unfold indiv_base.
  pose proof (field_range w (63 - 8 * ch) (60 - 8 * ch) ltac:(lia)) as F.
  replace (63 - 8 * ch - (60 - 8 * ch) + 1) with 4 in F by lia.
  pose proof (field_range w (59 - 8 * ch) (56 - 8 * ch) ltac:(lia)) as G.
  replace (59 - 8 * ch - (56 - 8 * ch) + 1) with 4 in G by lia.
  destruct (s =? 0); apply rep4_byte; assumption.
Qed.
Lemma second5_range w ch : overflows w ch = false -> 0 <= second5 w ch < 32.
Proof. unfold overflows. intros H. apply orb_false_iff in H as [H1 H2]. apply Z.ltb_ge in H1, H2. lia. Qed.
Lemma diff_base_byte w s ch : 0 <= ch < 3 -> overflows w ch = false -> is_byte (diff_base w s ch).
Proof.
  intros H O. unfold diff_base. destruct (s =? 0); apply rep5_byte.
  - apply base5_range; auto.
  - apply second5_range; auto.
Qed.

(** ** ETC1 *)
Lemma etc1_block_ok m data outbuf : bytes data -> 8 <= zlen data -> 16 <= zlen outbuf ->
  decode_etc1_block m data outbuf = Ok (tab 16 (etc1_wrap_texel data) ++ skipn 16 outbuf).
Proof.
  intros Hb Hd Ho. unfold decode_etc1_block.
  rewrite !idx_ok by lia. cbn [bind].
  rewrite <- f3937, <- f3634, <- f3232, <- fdiff by auto.
  destruct (sub_table_ok (etc_word data 0)) as (table & Et). rewrite Et. cbn [bind].
  rewrite be16_low, be16_mid by auto.
  unfold etc1_wrap_texel, etc_indiv_texel. cbv zeta. set (w := etc_word data 0) in *.
  destruct (etc_diff w) eqn:D.
  - rewrite <- !f_first, <- !f_second_wrap by (auto; lia). fold w.
    pose proof (etc_sub_loop_ok m w (wrap_base w) outbuf table
      (fun s ch _ H => wrap_base_byte w s ch H) Ho Et) as L.
    unfold wrap_base at 1 2 3 4 5 6 in L. cbn [Z.eqb] in L. rewrite L. reflexivity.
  - pose proof (etc_sub_loop_ok m w (indiv_base w) outbuf table
      (fun s ch _ H => indiv_base_byte w s ch H) Ho Et) as L.
    assert (forall ch, 0 <= ch < 3 -> indiv_base w 0 ch = hi4 (znth data ch) /\
                                      indiv_base w 1 ch = lo4 (znth data ch)) as I.
    { intros ch Hch. unfold w. rewrite !f_indiv by (auto; lia). split; reflexivity. }
    rewrite !(proj1 (I 0 ltac:(lia))), !(proj2 (I 0 ltac:(lia))), !(proj1 (I 1 ltac:(lia))),
      !(proj2 (I 1 ltac:(lia))), !(proj1 (I 2 ltac:(lia))), !(proj2 (I 2 ltac:(lia))) in L.
    rewrite L. reflexivity.
Qed.

(** ** ETC2 RGB *)
Section Deltas.
Context (m : build) (b : list Z) (Hb : bytes b).
Lemma second8_ia ch : 0 <= ch < 3 ->
  ia m 32 (Z.land (znth b ch) 248 + delta8 (znth b ch)) = Ok (Z.land (znth b ch) 248 + delta8 (znth b ch)).
Proof.
  intros H. apply ia_ok. rewrite <- (f_second8 b Hb ch H). pose proof (f_second_range b Hb ch H).
  change (2 ^ (32 - 1)) with 2147483648; lia.
Qed.
End Deltas.

Lemma or5_u8 d : is_byte d -> u8 (or5 (Z.land d 0xf8)) = or5 (Z.land d 0xf8).
Proof. intros H. bytesweep d H. Qed.

Lemma set4 a b c d s : 0 <= s < 4 ->
  znth [a; b; c; d] s = if s =? 0 then a else if s =? 1 then b else if s =? 2 then c else d.
Proof. intros H; enum s H; reflexivity. Qed.

Lemma h_set_texel w t : 0 <= t < 16 ->
  znth [add_rgb (fun ch => rep4 (h_color1 w ch)) (h_distance w) 255;
      add_rgb (fun ch => rep4 (h_color1 w ch)) (- h_distance w) 255;
      add_rgb (fun ch => rep4 (h_color2 w ch)) (h_distance w) 255;
      add_rgb (fun ch => rep4 (h_color2 w ch)) (- h_distance w) 255] (etc_index w t) = h_texel w t.
Proof.
  intros Ht. unfold h_texel. pose proof (etc_index_range w t Ht) as R.
  generalize dependent (etc_index w t); intros s R. enum s R; reflexivity.
Qed.
Lemma t_set_texel w t : 0 <= t < 16 ->
  znth [add_rgb (t_base1 w) 0 255; add_rgb (t_base2 w) (t_distance w) 255; add_rgb (t_base2 w) 0 255;
      add_rgb (t_base2 w) (- t_distance w) 255] (etc_index w t) = t_texel w t.
Proof.
  intros Ht. unfold t_texel. rewrite set4 by (apply etc_index_range; auto). reflexivity.
Qed.

Lemma ok_tab_app (f g : Z -> Z) l : (forall t, 0 <= t < 16 -> f t = g t) ->
  @Ok (list Z) (tab 16 f ++ l) = Ok (tab 16 g ++ l).
Proof. intros H. rewrite (tab_ext 16 f g H). reflexivity. Qed.

Lemma etc2_rgb_block_ok m data outbuf : bytes data -> 8 <= zlen data -> 16 <= zlen outbuf ->
  decode_etc2_rgb_block m data outbuf = Ok (tab 16 (etc2_texel data 0) ++ skipn 16 outbuf).
Proof.
  intros Hb Hd Ho. unfold decode_etc2_rgb_block.
  rewrite !idx_ok by lia. cbn [bind].
  rewrite <- f3937, <- f3634, <- f3232, <- fdiff by auto.
  destruct (sub_table_ok (etc_word data 0)) as (table & Et). rewrite Et. cbn [bind].
  rewrite be16_low, be16_mid by auto.
  unfold etc2_texel, etc_indiv_texel, etc_diff_texel. cbv zeta. set (w := etc_word data 0) in *.
  destruct (etc_diff w) eqn:D; cbn [negb].
  - rewrite !etc2_delta_ok by auto. cbn [bind].
    rewrite !second8_ia by (auto; lia). cbn [bind].
    rewrite !f_over by (auto; lia). fold w.
    destruct (overflows w 0) eqn:O0; [|destruct (overflows w 1) eqn:O1; [|destruct (overflows w 2) eqn:O2]].
    + pose proof (t_dist_ok data Hb) as TD. rewrite <- f3232 in TD by auto. fold w in TD. rewrite TD. clear TD.
    rewrite t_colors_ok by auto. fold w. cbn [bind].
      rewrite t_set_ok. cbn [bind].
      rewrite etc_set_loop_ok by (auto; reflexivity). cbn [andb].
      apply ok_tab_app. apply t_set_texel.
    + rewrite h_colors_ok by auto. fold w. pose proof (h_dist_ok data Hb m) as HD. fold w in HD. rewrite HD.
      cbn [bind]. rewrite (h_set_ok m data w eq_refl). cbn [bind].
      rewrite etc_set_loop_ok by (auto; reflexivity). cbn [andb].
      apply ok_tab_app. apply h_set_texel.
    + rewrite planar_o_ok, planar_h_ok, planar_v_ok by auto. fold w. apply planar_loop_ok; auto.
    + rewrite !or5_u8 by auto.
      rewrite <- !f_first, <- !f_second by (auto; lia). fold w.
      assert (forall s ch, 0 <= s < 2 -> 0 <= ch < 3 -> is_byte (diff_base w s ch)) as Bd.
      { intros s ch Hs Hch. apply diff_base_byte; auto.
        assert (ch = 0 \/ ch = 1 \/ ch = 2) as [-> | [-> | ->]] by lia; auto. }
      pose proof (etc_sub_loop_ok m w (diff_base w) outbuf table Bd Ho Et) as L.
      unfold diff_base at 1 2 3 4 5 6 in L. cbn [Z.eqb] in L. rewrite L. reflexivity.
  - pose proof (etc_sub_loop_ok m w (indiv_base w) outbuf table
      (fun s ch _ H => indiv_base_byte w s ch H) Ho Et) as L.
    assert (forall ch, 0 <= ch < 3 -> indiv_base w 0 ch = hi4 (znth data ch) /\
                                      indiv_base w 1 ch = lo4 (znth data ch)) as I.
    { intros ch Hch. unfold w. rewrite !f_indiv by (auto; lia). split; reflexivity. }
    rewrite !(proj1 (I 0 ltac:(lia))), !(proj2 (I 0 ltac:(lia))), !(proj1 (I 1 ltac:(lia))),
      !(proj2 (I 1 ltac:(lia))), !(proj1 (I 2 ltac:(lia))), !(proj2 (I 2 ltac:(lia))) in L.
    rewrite L. reflexivity.
Qed.

(** ** ETC2 RGBA1 *)
Lemma low24_rgb c d : add_rgb c d 255 mod 2 ^ 24 = add_rgb c d 255 - 255 * 16777216.
Proof.
  unfold add_rgb, rgba. pose proof (clamp8_byte (c 0 + d)); pose proof (clamp8_byte (c 1 + d));
  pose proof (clamp8_byte (c 2 + d)). unfold is_byte in *.
  generalize dependent (clamp8 (c 0 + d)); generalize dependent (clamp8 (c 1 + d));
  generalize dependent (clamp8 (c 2 + d)); intros.
  symmetry; apply Z.mod_unique with 255; lia.
Qed.

Lemma t_texel_low w t : t_texel w t mod 2 ^ 24 = t_texel w t - 255 * 16777216.
Proof. unfold t_texel. repeat match goal with |- context [if ?c then _ else _] => destruct c end; apply low24_rgb. Qed.
Lemma h_texel_low w t : h_texel w t mod 2 ^ 24 = h_texel w t - 255 * 16777216.
Proof. apply low24_rgb. Qed.
Lemma add_rgb_alpha c d a : add_rgb c d a = add_rgb c d 255 - 255 * 16777216 + a * 16777216.
Proof. unfold add_rgb, rgba. lia. Qed.

Lemma etc2_rgba1_block_ok m data outbuf : bytes data -> 8 <= zlen data -> 16 <= zlen outbuf ->
  decode_etc2_rgba1_block m data outbuf = Ok (tab 16 (etc2a_code_texel data) ++ skipn 16 outbuf).
Proof.
  intros Hb Hd Ho. unfold decode_etc2_rgba1_block.
  rewrite !idx_ok by lia. cbn [bind].
  rewrite <- f3937, <- f3634, <- f3232, <- fdiff' by auto.
  destruct (sub_table_ok (etc_word data 0)) as (table & Et). rewrite Et. cbn [bind].
  rewrite be16_low, be16_mid by auto.
  unfold etc2a_code_texel, etc2a_clear, etc2a_color. cbv zeta. set (w := etc_word data 0) in *.
  rewrite !etc2_delta_ok by auto. cbn [bind].
  rewrite !second8_ia by (auto; lia). cbn [bind].
  rewrite !f_over by (auto; lia). fold w.
  destruct (overflows w 0) eqn:O0; [|destruct (overflows w 1) eqn:O1; [|destruct (overflows w 2) eqn:O2]];
    cbn [orb negb].
  - pose proof (t_dist_ok data Hb) as TD. rewrite <- f3232 in TD by auto. fold w in TD. rewrite TD. clear TD.
    rewrite t_colors_ok by auto. fold w. cbn [bind].
    rewrite t_set_ok. cbn [bind].
    rewrite etc_set_loop_ok by (auto; reflexivity).
    apply ok_tab_app. intros t Ht. rewrite t_set_texel by auto. rewrite andb_true_r, t_texel_low. reflexivity.
  - rewrite h_colors_ok by auto. fold w. pose proof (h_dist_ok data Hb m) as HD. fold w in HD. rewrite HD.
    cbn [bind]. rewrite (h_set_ok m data w eq_refl). cbn [bind].
    rewrite etc_set_loop_ok by (auto; reflexivity).
    apply ok_tab_app. intros t Ht. rewrite h_set_texel by auto. rewrite andb_true_r, h_texel_low. reflexivity.
  - rewrite planar_o_ok, planar_h_ok, planar_v_ok by auto. fold w. rewrite planar_loop_ok by auto.
    apply ok_tab_app. intros t Ht. rewrite andb_false_r. reflexivity.
  - rewrite !or5_u8 by auto.
    rewrite <- !f_first, <- !f_second by (auto; lia). fold w.
    assert (forall s ch, 0 <= s < 2 -> 0 <= ch < 3 -> is_byte (diff_base w s ch)) as Bd.
    { intros s ch Hs Hch. apply diff_base_byte; auto.
      assert (ch = 0 \/ ch = 1 \/ ch = 2) as [-> | [-> | ->]] by lia; auto. }
    pose proof (etc2a_sub_loop_ok m w (diff_base w) outbuf table Bd Ho Et (etc_diff w)) as L.
    unfold diff_base at 1 2 3 4 5 6 in L. cbn [Z.eqb] in L. rewrite L.
    apply ok_tab_app. intros t Ht. rewrite andb_true_r. rewrite add_rgb_alpha.
    destruct (negb (etc_diff w) && (etc_index w t =? 2)); lia.
Qed.
