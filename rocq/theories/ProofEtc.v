(** * Proofs for ETC1, ETC2 and EAC *)
From Verif Require Import Base BaseLemmas BitLemmas ModelColor SpecImage ProofDecoder SpecBc ProofBc
  ProofBcImage ModelEtc SpecEtc FieldLemmas.

Lemma byte_eqb (f g : Z -> bool) : all_below 256 (fun d => Bool.eqb (f d) (g d)) = true ->
  forall d, is_byte d -> f d = g d.
Proof. intros H d Hd. apply eqb_prop. exact (all_below_spec _ _ H d Hd). Qed.

Ltac bytesweepb d H :=
  match goal with
  | |- ?L = ?R =>
      let f := eval pattern d in L in
      let g := eval pattern d in R in
      match f with ?F _ => match g with ?G _ =>
        exact (byte_eqb F G ltac:(vm_cast_no_check (eq_refl true)) d H) end end
  end.

(** ** Fields of the block as byte fields *)
Lemma byte_znth b i : bytes b -> is_byte (znth b i).
Proof. intros; apply bytes_znth; auto. Qed.
Global Hint Resolve byte_znth : core.

Ltac wf H b o hi lo k j i :=
  let E := fresh in
  pose proof (word_field b o hi lo k j H ltac:(lia) ltac:(reflexivity) ltac:(lia) ltac:(lia) ltac:(lia)) as E;
  change (o + (7 - k)) with i in E;
  let n := eval cbv in (hi - lo + 1) in change (hi - lo + 1) with n in E;
  rewrite E; clear E.

Section Fields.
Context (b : list Z) (Hb : bytes b).
Let w := etc_word b 0.
Lemma f3937 : field w 39 37 = Z.shiftr (znth b 3) 5.
Proof. unfold w. wf Hb b 0 39 37 4 5 3. pose proof (byte_znth b 3 Hb) as H. generalize dependent (znth b 3); intros d H. bytesweep d H. Qed.
Lemma f3634 : field w 36 34 = Z.land (Z.shiftr (znth b 3) 2) 7.
Proof. unfold w. wf Hb b 0 36 34 4 2 3. pose proof (byte_znth b 3 Hb) as H. generalize dependent (znth b 3); intros d H. bytesweep d H. Qed.
Lemma f3232 : field w 32 32 = Z.land (znth b 3) 1.
Proof. unfold w. wf Hb b 0 32 32 4 0 3. pose proof (byte_znth b 3 Hb) as H. generalize dependent (znth b 3); intros d H. bytesweep d H. Qed.
Lemma fdiff : etc_diff w = (0 <? Z.land (znth b 3) 2).
Proof. unfold w, etc_diff. wf Hb b 0 33 33 4 1 3. pose proof (byte_znth b 3 Hb) as H. generalize dependent (znth b 3); intros d H. bytesweepb d H. Qed.
Lemma fdiff' : etc_diff w = (0 <? Z.land (Z.shiftr (znth b 3) 1) 1).
Proof. unfold w, etc_diff. wf Hb b 0 33 33 4 1 3. pose proof (byte_znth b 3 Hb) as H. generalize dependent (znth b 3); intros d H. bytesweepb d H. Qed.

Lemma f_base5 ch : 0 <= ch < 3 -> base5 w ch = znth b ch / 2 ^ 3 mod 2 ^ 5.
Proof. intros H. unfold w, base5. enum ch H;
  [exact (word_field b 0 63 59 7 3 Hb ltac:(lia) eq_refl ltac:(lia) ltac:(lia) ltac:(lia))
  |exact (word_field b 0 55 51 6 3 Hb ltac:(lia) eq_refl ltac:(lia) ltac:(lia) ltac:(lia))
  |exact (word_field b 0 47 43 5 3 Hb ltac:(lia) eq_refl ltac:(lia) ltac:(lia) ltac:(lia))]. Qed.
Lemma f_delta3 ch : 0 <= ch < 3 -> delta3 w ch = signed3 (znth b ch / 2 ^ 0 mod 2 ^ 3).
Proof. intros H. unfold w, delta3. f_equal. enum ch H;
  [exact (word_field b 0 58 56 7 0 Hb ltac:(lia) eq_refl ltac:(lia) ltac:(lia) ltac:(lia))
  |exact (word_field b 0 50 48 6 0 Hb ltac:(lia) eq_refl ltac:(lia) ltac:(lia) ltac:(lia))
  |exact (word_field b 0 42 40 5 0 Hb ltac:(lia) eq_refl ltac:(lia) ltac:(lia) ltac:(lia))]. Qed.
Lemma f_indiv ch s : 0 <= ch < 3 -> 0 <= s < 2 ->
  indiv_base w s ch = if s =? 0 then hi4 (znth b ch) else lo4 (znth b ch).
Proof.
  intros H Hs. unfold w, indiv_base.
  assert (field (etc_word b 0) (63 - 8 * ch) (60 - 8 * ch) = znth b ch / 2 ^ 4 mod 2 ^ 4) as ->.
  { enum ch H;
    [exact (word_field b 0 63 60 7 4 Hb ltac:(lia) eq_refl ltac:(lia) ltac:(lia) ltac:(lia))
    |exact (word_field b 0 55 52 6 4 Hb ltac:(lia) eq_refl ltac:(lia) ltac:(lia) ltac:(lia))
    |exact (word_field b 0 47 44 5 4 Hb ltac:(lia) eq_refl ltac:(lia) ltac:(lia) ltac:(lia))]. }
  assert (field (etc_word b 0) (59 - 8 * ch) (56 - 8 * ch) = znth b ch / 2 ^ 0 mod 2 ^ 4) as ->.
  { enum ch H;
    [exact (word_field b 0 59 56 7 0 Hb ltac:(lia) eq_refl ltac:(lia) ltac:(lia) ltac:(lia))
    |exact (word_field b 0 51 48 6 0 Hb ltac:(lia) eq_refl ltac:(lia) ltac:(lia) ltac:(lia))
    |exact (word_field b 0 43 40 5 0 Hb ltac:(lia) eq_refl ltac:(lia) ltac:(lia) ltac:(lia))]. }
  pose proof (byte_znth b ch Hb) as Hd. generalize dependent (znth b ch); intros d Hd.
  destruct (s =? 0); bytesweep d Hd.
Qed.
Lemma f_first ch : 0 <= ch < 3 -> rep5 (base5 w ch) = or5 (Z.land (znth b ch) 0xf8).
Proof.
  intros H. rewrite f_base5 by auto.
  pose proof (byte_znth b ch Hb) as Hd. generalize dependent (znth b ch); intros d Hd. bytesweep d Hd.
Qed.
Lemma f_second_wrap ch : 0 <= ch < 3 -> rep5 (second5 w ch mod 32) = or5 (etc1_second (znth b ch)).
Proof.
  intros H. unfold second5. rewrite f_base5, f_delta3 by auto.
  pose proof (byte_znth b ch Hb) as Hd. generalize dependent (znth b ch); intros d Hd. bytesweep d Hd.
Qed.
Definition delta8 d : Z := Z.land (Z.shiftl d 3) 0x18 - Z.land (Z.shiftl d 3) 0x20.
Lemma f_second8 ch : 0 <= ch < 3 -> 8 * second5 w ch = Z.land (znth b ch) 0xf8 + delta8 (znth b ch).
Proof.
  intros H. unfold second5. rewrite f_base5, f_delta3 by auto.
  pose proof (byte_znth b ch Hb) as Hd. generalize dependent (znth b ch); intros d Hd. bytesweep d Hd.
Qed.
Lemma f_second_range ch : 0 <= ch < 3 -> -4 <= second5 w ch <= 34.
Proof.
  intros H. unfold second5. rewrite f_base5, f_delta3 by auto.
  pose proof (Z.mod_pos_bound (znth b ch / 2 ^ 3) (2 ^ 5) ltac:(lia)).
  pose proof (Z.mod_pos_bound (znth b ch / 2 ^ 0) (2 ^ 3) ltac:(lia)).
  unfold signed3. destruct (Z.leb_spec 4 (znth b ch / 2 ^ 0 mod 2 ^ 3)); lia.
Qed.
Lemma f_over ch : 0 <= ch < 3 ->
  ((Z.land (znth b ch) 0xf8 + delta8 (znth b ch) <? 0) || (255 <? Z.land (znth b ch) 0xf8 + delta8 (znth b ch)))
  = overflows w ch.
Proof.
  intros H. rewrite <- f_second8 by auto. unfold overflows.
  apply eq_true_iff_eq. rewrite !orb_true_iff, !Z.ltb_lt. lia.
Qed.
Lemma f_second ch : 0 <= ch < 3 -> overflows w ch = false ->
  rep5 (second5 w ch) = or5 (u8 (Z.land (znth b ch) 0xf8 + delta8 (znth b ch))).
Proof.
  intros H Ho. rewrite <- f_second8 by auto. unfold overflows in Ho. apply orb_false_iff in Ho as [H1 H2].
  apply Z.ltb_ge in H1, H2. assert (0 <= second5 w ch < 32) as Hs by lia.
  generalize dependent (second5 w ch); intros s _ _ Hs. enum s Hs; reflexivity.
Qed.
End Fields.

Lemma etc2_delta_ok m d : is_byte d -> etc2_delta m d = Ok (delta8 d).
Proof.
  intros H. unfold etc2_delta. fold (delta8 d). apply ia_ok.
  assert (-32 <= delta8 d <= 24) as R.
  { pose proof (byte_eqb (fun d => (-32 <=? delta8 d) && (delta8 d <=? 24)) (fun _ => true)
      ltac:(vm_cast_no_check (eq_refl true)) d H) as E. cbv beta in E.
    apply andb_true_iff in E as [? ?]; lia. }
  change (2 ^ (32 - 1)) with 2147483648; lia.
Qed.

(** ** Applying modifiers *)
Lemma clamp_ok n : clamp n = clamp8 n.
Proof.
  unfold clamp, clamp8, u8. destruct (Z.ltb_spec n 0); [rewrite Z.mod_small; lia|].
  destruct (Z.ltb_spec 255 n); rewrite Z.mod_small; lia.
Qed.
Lemma clamp8_byte n : is_byte (clamp8 n).
Proof. unfold is_byte, clamp8; lia. Qed.
Lemma clamp8_id n : is_byte n -> clamp8 n = n.
Proof. unfold is_byte, clamp8; lia. Qed.

Lemma applicate_ok m (C : Z -> Z) md a : (forall ch, 0 <= ch < 3 -> is_byte (C ch)) -> -1000 <= md <= 1000 ->
  applicate m (C 0, C 1, C 2) md a = Ok (add_rgb C md a).
Proof.
  intros HC Hm. unfold applicate.
  pose proof (HC 0 ltac:(lia)). pose proof (HC 1 ltac:(lia)). pose proof (HC 2 ltac:(lia)).
  unfold is_byte in *. rewrite !ia_ok by (change (2 ^ (32 - 1)) with 2147483648; lia). cbn [bind].
  rewrite !clamp_ok, color_rgba. reflexivity.
Qed.
Lemma applicate_raw_ok (C : Z -> Z) : (forall ch, 0 <= ch < 3 -> is_byte (C ch)) ->
  applicate_color_raw (C 0, C 1, C 2) = add_rgb C 0 255.
Proof.
  intros HC. unfold applicate_color_raw, add_rgb. rewrite !Z.add_0_r, !clamp8_id, color_rgba by (apply HC; lia).
  reflexivity.
Qed.

Lemma modifier_row cw : 0 <= cw < 8 ->
  idx ETC1_MODIFIER_TABLE cw = Ok [znth etc_small cw; znth etc_large cw].
Proof. intros H; enum cw H; reflexivity. Qed.
Lemma modifier_row_a cw : 0 <= cw < 8 ->
  (let* mods := idx ETC2A_MODIFIER_TABLE 0 in idx mods cw) = Ok [0; znth etc_large cw] /\
  (let* mods := idx ETC2A_MODIFIER_TABLE 1 in idx mods cw) = Ok [znth etc_small cw; znth etc_large cw].
Proof. intros H; enum cw H; split; reflexivity. Qed.
Lemma modifier_range cw : 0 <= cw < 8 -> 0 <= znth etc_small cw <= 183 /\ 0 <= znth etc_large cw <= 183.
Proof. intros H; enum cw H; vm_compute; repeat split; congruence. Qed.

Lemma sub_table w i table : 0 <= i < 16 -> idx ETC1_SUBBLOCK_TABLE (field w 32 32) = Ok table ->
  idx table i = Ok (etc_sub w (pixel i)) /\ 0 <= etc_sub w (pixel i) < 2.
Proof.
  intros Hi. unfold etc_sub. pose proof (field_range w 32 32 ltac:(lia)) as F. change (2 ^ (32 - 32 + 1)) with 2 in F.
  generalize dependent (field w 32 32); intros f F.
  enum f F; intros E; inv E; enum i Hi; vm_compute; repeat split; congruence.
Qed.

Lemma write_order i : 0 <= i < 16 -> idx WRITE_ORDER_TABLE i = Ok (pixel i).
Proof. intros H; enum i H; reflexivity. Qed.
Lemma write_order_rev i : 0 <= i < 16 -> idx WRITE_ORDER_TABLE_REV i = Ok (15 - pixel i).
Proof. intros H; enum i H; reflexivity. Qed.

Lemma land1 x : Z.land x 1 = x mod 2.
Proof. change 1 with (2 ^ 1 - 1) at 1; rewrite land_mask by lia; reflexivity. Qed.

Lemma low_bit w i : 0 <= i < 16 -> (w mod 2 ^ 16) / 2 ^ i mod 2 = field w i i.
Proof. intros H. change 2 with (2 ^ 1) at 3. rewrite mod_div_mod by lia. unfold field. do 2 f_equal. lia. Qed.
Lemma mid_bit w i : 0 <= i < 16 -> (w / 2 ^ 16 mod 2 ^ 16) / 2 ^ i mod 2 = field w (16 + i) (16 + i).
Proof.
  intros H. change 2 with (2 ^ 1) at 4. rewrite mod_div_mod by lia. unfold field.
  rewrite <- div_pow_split by lia. do 2 f_equal. lia.
Qed.
Lemma shr1_pow x i : 0 <= i -> Z.shiftr (x / 2 ^ i) 1 = x / 2 ^ (i + 1).
Proof. intros. rewrite shr_div by lia. rewrite div_pow_split by lia. auto. Qed.
Lemma bit_range w i : 0 <= i -> 0 <= field w i i < 2.
Proof. intros. pose proof (field_range w i i ltac:(lia)) as F. replace (i - i + 1) with 1 in F by lia. exact F. Qed.

Section SubLoop.
Context (m : build) (w : Z) (C : Z -> Z -> Z) (outbuf table : list Z).
Context (HC : forall s ch, 0 <= s < 2 -> 0 <= ch < 3 -> is_byte (C s ch))
  (Ho : 16 <= zlen outbuf) (Ht : idx ETC1_SUBBLOCK_TABLE (field w 32 32) = Ok table).

Lemma etc_sub_loop_ok :
  etc_sub_loop m (C 0 0, C 0 1, C 0 2) (C 1 0, C 1 1, C 1 2) (field w 39 37) (field w 36 34) table outbuf
    (w mod 2 ^ 16) (w / 2 ^ 16 mod 2 ^ 16) =
  Ok (tab 16 (fun t => add_rgb (C (etc_sub w t)) (etc_modifier (etc_codeword w (etc_sub w t)) (etc_index w t)) 255)
      ++ skipn 16 outbuf).
Proof.
  unfold etc_sub_loop.
  pose proof (perm_loop pixel pixel
    (fun t _ => add_rgb (C (etc_sub w t)) (etc_modifier (etc_codeword w (etc_sub w t)) (etc_index w t)) 255)
    (fun i => ((w mod 2 ^ 16) / 2 ^ i, (w / 2 ^ 16 mod 2 ^ 16) / 2 ^ i)) outbuf 16) as L.
  cbv beta in L. change (2 ^ 0) with 1 in L. rewrite !Z.div_1_r in L.
  rewrite L; [reflexivity|lia|apply pixel_perm|apply pixel_perm|]. clear L.
  intros i l Hi Hl _.
  destruct (sub_table w i table Hi Ht) as [-> Hs]. cbn [bind].
  set (s := etc_sub w (pixel i)) in *.
  rewrite idx2 by auto. cbn [bind].
  fold (etc_codeword w s).
  assert (0 <= etc_codeword w s < 8) as Hcw.
  { unfold etc_codeword. destruct (s =? 0); [apply (field_range w 39 37)|apply (field_range w 36 34)]; lia. }
  rewrite modifier_row by auto. cbn [bind].
  rewrite !land1, low_bit, mid_bit by auto.
  pose proof (bit_range w i ltac:(lia)) as Bj. pose proof (bit_range w (16 + i) ltac:(lia)) as Bk.
  rewrite idx2 by auto. cbn [bind]. rewrite idx2 by auto. cbn [bind].
  destruct (modifier_range _ Hcw) as [Ms Ml].
  unfold etc_index. destruct (pixel_perm i Hi) as [_ ->].
  set (cw := etc_codeword w s) in *.
  assert ((if 0 <? field w (16 + i) (16 + i)
     then ia m 16 (- (if field w i i =? 0 then znth etc_small cw else znth etc_large cw))
     else Ok (if field w i i =? 0 then znth etc_small cw else znth etc_large cw)) =
     Ok (etc_modifier cw (2 * field w (16 + i) (16 + i) + field w i i))) as ->.
  { generalize dependent (field w i i); intros j Bj. generalize dependent (field w (16 + i) (16 + i)); intros k Bk.
    enum k Bk; enum j Bj; cbn [Z.ltb Z.eqb Z.compare]; try reflexivity; rewrite ia_ok; try reflexivity;
      change (2 ^ (16 - 1)) with 32768; lia. }
  cbn [bind]. unfold applicate_color.
  assert (-1000 <= etc_modifier cw (2 * field w (16 + i) (16 + i) + field w i i) <= 1000) as Hmd.
  { unfold etc_modifier. repeat match goal with |- context [if ?c then _ else _] => destruct c end; lia. }
  replace (if s =? 0 then (C 0 0, C 0 1, C 0 2) else (C 1 0, C 1 1, C 1 2)) with (C s 0, C s 1, C s 2)
    by (destruct (Z.eqb_spec s 0) as [E0|]; [rewrite E0|replace s with 1 by lia]; reflexivity).
  rewrite applicate_ok by auto. cbn [bind].
  rewrite write_order by auto. cbn [bind].
  rewrite upd_ok by (pose proof (pixel_perm i Hi); lia). cbn [bind].
  rewrite !shr1_pow by lia. reflexivity.
Qed.

Lemma etc2a_sub_loop_ok opaque :
  etc2a_sub_loop m opaque (C 0 0, C 0 1, C 0 2) (C 1 0, C 1 1, C 1 2) (field w 39 37) (field w 36 34) table outbuf
    (w mod 2 ^ 16) (w / 2 ^ 16 mod 2 ^ 16) =
  Ok (tab 16 (fun t => add_rgb (C (etc_sub w t))
         (etc2a_modifier opaque (etc_codeword w (etc_sub w t)) (etc_index w t))
         (if negb opaque && (etc_index w t =? 2) then 0 else 255))
      ++ skipn 16 outbuf).
Proof.
  unfold etc2a_sub_loop.
  pose proof (perm_loop pixel pixel
    (fun t _ => add_rgb (C (etc_sub w t))
         (etc2a_modifier opaque (etc_codeword w (etc_sub w t)) (etc_index w t))
         (if negb opaque && (etc_index w t =? 2) then 0 else 255))
    (fun i => ((w mod 2 ^ 16) / 2 ^ i, (w / 2 ^ 16 mod 2 ^ 16) / 2 ^ i)) outbuf 16) as L.
  cbv beta in L. change (2 ^ 0) with 1 in L. rewrite !Z.div_1_r in L.
  assert (exists mods, idx ETC2A_MODIFIER_TABLE (if opaque then 1 else 0) = Ok mods /\
    forall cw, 0 <= cw < 8 ->
      idx mods cw = Ok [if opaque then znth etc_small cw else 0; znth etc_large cw]) as (mods & -> & Hmods).
  { destruct opaque; eexists; (split; [reflexivity|]); intros cw Hcw; apply (modifier_row_a cw Hcw). }
  cbn [bind].
  rewrite L; [reflexivity|lia|apply pixel_perm|apply pixel_perm|]. clear L.
  intros i l Hi Hl _.
  destruct (sub_table w i table Hi Ht) as [-> Hs]. cbn [bind].
  set (s := etc_sub w (pixel i)) in *.
  rewrite idx2 by auto. cbn [bind].
  fold (etc_codeword w s).
  assert (0 <= etc_codeword w s < 8) as Hcw.
  { unfold etc_codeword. destruct (s =? 0); [apply (field_range w 39 37)|apply (field_range w 36 34)]; lia. }
  rewrite Hmods by auto. cbn [bind].
  rewrite !land1, low_bit, mid_bit by auto.
  pose proof (bit_range w i ltac:(lia)) as Bj. pose proof (bit_range w (16 + i) ltac:(lia)) as Bk.
  rewrite idx2 by auto. cbn [bind]. rewrite idx2 by auto. cbn [bind].
  destruct (modifier_range _ Hcw) as [Ms Ml].
  unfold etc_index. destruct (pixel_perm i Hi) as [_ ->].
  set (cw := etc_codeword w s) in *.
  set (small := if opaque then znth etc_small cw else 0).
  assert ((if 0 <? field w (16 + i) (16 + i)
     then ia m 16 (- (if field w i i =? 0 then small else znth etc_large cw))
     else Ok (if field w i i =? 0 then small else znth etc_large cw)) =
     Ok (etc2a_modifier opaque cw (2 * field w (16 + i) (16 + i) + field w i i))) as ->.
  { assert (0 <= small <= 183) by (unfold small; destruct opaque; lia).
    generalize dependent (field w i i); intros j Bj. generalize dependent (field w (16 + i) (16 + i)); intros k Bk.
    destruct opaque; unfold small in *; clear small;
    enum k Bk; enum j Bj; cbn [Z.ltb Z.eqb Z.compare]; try reflexivity; rewrite ia_ok; try reflexivity;
      change (2 ^ (16 - 1)) with 32768; lia. }
  cbn [bind]. unfold applicate_color_alpha.
  assert (-1000 <= etc2a_modifier opaque cw (2 * field w (16 + i) (16 + i) + field w i i) <= 1000) as Hmd.
  { unfold etc2a_modifier, etc_modifier. repeat match goal with |- context [if ?c then _ else _] => destruct c end; lia. }
  replace (if s =? 0 then (C 0 0, C 0 1, C 0 2) else (C 1 0, C 1 1, C 1 2)) with (C s 0, C s 1, C s 2)
    by (destruct (Z.eqb_spec s 0) as [E0|]; [rewrite E0|replace s with 1 by lia]; reflexivity).
  rewrite applicate_ok by auto. cbn [bind].
  rewrite write_order by auto. cbn [bind].
  rewrite upd_ok by (pose proof (pixel_perm i Hi); lia). cbn [bind].
  rewrite !shr1_pow by lia.
  rewrite upd_ok by (pose proof (pixel_perm i Hi); lia). cbn [bind].
  do 3 f_equal. generalize dependent (field w i i); intros j Bj Hmd.
  generalize dependent (field w (16 + i) (16 + i)); intros k Bk Hmd.
  enum k Bk; enum j Bj; destruct opaque; reflexivity.
Qed.
End SubLoop.

(** ** The index loop of the T and H modes *)
Lemma land2 x : Z.land x 2 = 2 * (x / 2 mod 2).
Proof.
  change 2 with (Z.land 3 2) at 1. rewrite Z.land_assoc, land3.
  replace (x / 2 mod 2) with (x mod 4 / 2) by dlia.
  pose proof (Z.mod_pos_bound x 4 ltac:(lia)) as H. generalize dependent (x mod 4); intros r H.
  enum r H; reflexivity.
Qed.

Lemma land_low24 p : Z.land p 0x00ffffff = p mod 2 ^ 24.
Proof. change 0x00ffffff with (2 ^ 24 - 1). apply land_mask; lia. Qed.

Lemma lor_bits a b : 0 <= a < 2 -> 0 <= b < 2 -> Z.lor (2 * a) b = 2 * a + b.
Proof. intros Ha Hb. enum a Ha; enum b Hb; reflexivity. Qed.

Lemma etc_index_range w t : 0 <= t < 16 -> 0 <= etc_index w t < 4.
Proof.
  intros Ht. unfold etc_index. destruct (pixel_perm t Ht) as [P _].
  pose proof (bit_range w (pixel t) ltac:(lia)). pose proof (bit_range w (16 + pixel t) ltac:(lia)). lia.
Qed.

Lemma replace_nth_twice {A} n (a b : A) l : replace_nth n b (replace_nth n a l) = replace_nth n b l.
Proof. revert n; induction l; destruct n; cbn [replace_nth]; congruence. Qed.

Lemma etc_set_loop_ok m punch w set outbuf : zlen set = 4 -> 16 <= zlen outbuf ->
  etc_set_loop m punch set outbuf (w mod 2 ^ 16) (w / 2 ^ 16 mod 2 ^ 16) =
  Ok (tab 16 (fun t => if punch && (etc_index w t =? 2) then znth set (etc_index w t) mod 2 ^ 24
                       else znth set (etc_index w t)) ++ skipn 16 outbuf).
Proof.
  intros Hs Ho. unfold etc_set_loop.
  set (K := w / 2 ^ 16 mod 2 ^ 16). assert (0 <= K < 65536) as HK by (apply Z.mod_pos_bound; lia).
  rewrite ushl_ok by lia. cbn [bind]. change (2 ^ 1) with 2. rewrite (Z.mod_small (K * 2)) by (change (2 ^ 64) with 18446744073709551616; lia).
  pose proof (perm_loop pixel pixel
    (fun t _ => if punch && (etc_index w t =? 2) then znth set (etc_index w t) mod 2 ^ 24
                       else znth set (etc_index w t))
    (fun i => ((w mod 2 ^ 16) / 2 ^ i, (K * 2) / 2 ^ i)) outbuf 16) as L.
  cbv beta in L. change (2 ^ 0) with 1 in L. rewrite !Z.div_1_r in L.
  rewrite L; [reflexivity|lia|apply pixel_perm|apply pixel_perm|]. clear L.
  intros i l Hi Hl _.
  rewrite land1, land2, low_bit by auto.
  replace (K * 2 / 2 ^ i / 2) with (K / 2 ^ i).
  2:{ rewrite Z.div_div by (try lia; apply Z.pow_nonzero; lia).
      rewrite Z.div_mul_cancel_r by (try lia; apply Z.pow_nonzero; lia). auto. }
  unfold K. rewrite mid_bit by auto. fold K.
  rewrite lor_bits by (apply bit_range; lia).
  destruct (pixel_perm i Hi) as [Pi Pp].
  assert (2 * field w (16 + i) (16 + i) + field w i i = etc_index w (pixel i)) as ->.
  { unfold etc_index. rewrite Pp. auto. }
  pose proof (etc_index_range w (pixel i) Pi) as Hx.
  rewrite write_order by auto. cbn [bind].
  rewrite idx_ok by lia. cbn [bind].
  rewrite !upd_ok by lia. cbn [bind].
  rewrite !shr1_pow by lia.
  destruct (punch && (etc_index w (pixel i) =? 2)); cbn [bind].
  - rewrite idx_ok by (rewrite zlen_replace_nth; lia). cbn [bind].
    rewrite upd_ok by (rewrite zlen_replace_nth; lia). cbn [bind].
    rewrite znth_replace by lia. rewrite Z.eqb_refl, land_low24, replace_nth_twice. reflexivity.
  - reflexivity.
Qed.

(** ** Colours of the T, H and planar modes *)
Lemma field_split' w hi mid lo : 0 <= lo < mid -> mid <= hi ->
  field w hi lo = field w hi mid * 2 ^ (mid - lo) + field w (mid - 1) lo.
Proof.
  intros. rewrite (field_split w hi mid lo) by lia. f_equal. unfold field. do 2 f_equal. lia.
Qed.

(** Replaces a byte expression [L] in [znth b i] by [R]. *)
Ltac piece Hb b i L R :=
  replace (L (znth b i)) with (R (znth b i)) by
    (let H := fresh in pose proof (byte_znth b i Hb) as H; generalize dependent (znth b i);
     let d := fresh in intros d H; cbv beta; bytesweep d H); cbv beta.
Ltac bnd x n := 
  let H := fresh "B" in
  assert (0 <= x < n) as H by (apply Z.mod_pos_bound; lia);
  generalize dependent x; intros.

Section Modes.
Context (b : list Z) (Hb : bytes b).
Let w := etc_word b 0.

Lemma t_colors_ok : t_colors (znth b 0) (znth b 1) (znth b 2) (znth b 3) =
  ((t_base1 w 0, t_base1 w 1, t_base1 w 2), (t_base2 w 0, t_base2 w 1, t_base2 w 2)).
Proof.
  unfold t_colors, t_base1, t_base2, w. cbn [Z.eqb Pos.eqb].
  wf Hb b 0 60 59 7 3 0. wf Hb b 0 57 56 7 0 0. wf Hb b 0 55 52 6 4 1. wf Hb b 0 51 48 6 0 1.
  wf Hb b 0 47 44 5 4 2. wf Hb b 0 43 40 5 0 2. wf Hb b 0 39 36 4 4 3.
  repeat match goal with |- (_, _) = (_, _) => f_equal end.
  - pose proof (byte_znth b 0 Hb) as H. generalize dependent (znth b 0); intros d H. bytesweep d H.
  - pose proof (byte_znth b 1 Hb) as H. generalize dependent (znth b 1); intros d H. bytesweep d H.
  - pose proof (byte_znth b 1 Hb) as H. generalize dependent (znth b 1); intros d H. bytesweep d H.
  - pose proof (byte_znth b 2 Hb) as H. generalize dependent (znth b 2); intros d H. bytesweep d H.
  - pose proof (byte_znth b 2 Hb) as H. generalize dependent (znth b 2); intros d H. bytesweep d H.
  - pose proof (byte_znth b 3 Hb) as H. generalize dependent (znth b 3); intros d H. bytesweep d H.
Qed.

Lemma t_dist_ok :
  idx ETC2_DISTANCE_TABLE (Z.lor (Z.land (Z.shiftr (znth b 3) 1) 6) (Z.land (znth b 3) 1)) = Ok (t_distance w).
Proof.
  unfold t_distance, w. wf Hb b 0 35 34 4 2 3. wf Hb b 0 32 32 4 0 3.
  piece Hb b 3 (fun d => Z.lor (Z.land (Z.shiftr d 1) 6) (Z.land d 1))
    (fun d => 2 * (d / 2 ^ 2 mod 2 ^ 2) + d / 2 ^ 0 mod 2 ^ 1).
  bnd (znth b 3 / 2 ^ 2 mod 2 ^ 2) 4. bnd (znth b 3 / 2 ^ 0 mod 2 ^ 1) 2.
  enum z B; enum z0 B0; reflexivity.
Qed.

Lemma h_colors_ok : h_colors (znth b 0) (znth b 1) (znth b 2) (znth b 3) =
  ((rep4 (h_color1 w 0), rep4 (h_color1 w 1), rep4 (h_color1 w 2)),
   (rep4 (h_color2 w 0), rep4 (h_color2 w 1), rep4 (h_color2 w 2))).
Proof.
  unfold h_colors, h_color1, h_color2, w. cbn [Z.eqb Pos.eqb].
  rewrite (field_split' _ 49 48 47), (field_split' _ 42 40 39) by lia.
  change (48 - 1) with 47. change (40 - 1) with 39.
  change (2 ^ (48 - 47)) with 2. change (2 ^ (40 - 39)) with 2.
  wf Hb b 0 62 59 7 3 0. wf Hb b 0 58 56 7 0 0. wf Hb b 0 52 52 6 4 1. wf Hb b 0 51 51 6 3 1.
  wf Hb b 0 49 48 6 0 1. wf Hb b 0 47 47 5 7 2. wf Hb b 0 46 43 5 3 2. wf Hb b 0 42 40 5 0 2.
  wf Hb b 0 39 39 4 7 3. wf Hb b 0 38 35 4 3 3.
  repeat match goal with |- (_, _) = (_, _) => f_equal end.
  - pose proof (byte_znth b 0 Hb) as H. generalize dependent (znth b 0); intros d H. bytesweep d H.
  - piece Hb b 0 (fun d => Z.land (shl8 d 5) 0xe0) (fun d => 32 * (d / 2 ^ 0 mod 2 ^ 3)).
    piece Hb b 1 (fun d => Z.land d 0x10) (fun d => 16 * (d / 2 ^ 4 mod 2 ^ 1)).
    bnd (znth b 0 / 2 ^ 0 mod 2 ^ 3) 8. bnd (znth b 1 / 2 ^ 4 mod 2 ^ 1) 2.
    enum z B; enum z0 B0; reflexivity.
  - piece Hb b 1 (fun d => Z.lor (Z.land d 8) (Z.land (shl8 d 1) 6))
      (fun d => 8 * (d / 2 ^ 3 mod 2 ^ 1) + 2 * (d / 2 ^ 0 mod 2 ^ 2)).
    piece Hb b 2 (fun d => Z.shiftr d 7) (fun d => d / 2 ^ 7 mod 2 ^ 1).
    bnd (znth b 1 / 2 ^ 3 mod 2 ^ 1) 2. bnd (znth b 1 / 2 ^ 0 mod 2 ^ 2) 4. bnd (znth b 2 / 2 ^ 7 mod 2 ^ 1) 2.
    enum z B; enum z0 B0; enum z1 B1; reflexivity.
  - pose proof (byte_znth b 2 Hb) as H. generalize dependent (znth b 2); intros d H. bytesweep d H.
  - piece Hb b 2 (fun d => Z.land (shl8 d 5) 0xe0) (fun d => 32 * (d / 2 ^ 0 mod 2 ^ 3)).
    piece Hb b 3 (fun d => Z.land (Z.shiftr d 3) 0x10) (fun d => 16 * (d / 2 ^ 7 mod 2 ^ 1)).
    bnd (znth b 2 / 2 ^ 0 mod 2 ^ 3) 8. bnd (znth b 3 / 2 ^ 7 mod 2 ^ 1) 2.
    enum z B; enum z0 B0; reflexivity.
  - pose proof (byte_znth b 3 Hb) as H. generalize dependent (znth b 3); intros d H. bytesweep d H.
Qed.

Lemma h_color_range ch : 0 <= h_color1 w ch < 16 /\ 0 <= h_color2 w ch < 16.
Proof.
  unfold h_color1, h_color2.
  pose proof (field_range w 62 59 ltac:(lia)); pose proof (field_range w 58 56 ltac:(lia));
  pose proof (field_range w 52 52 ltac:(lia)); pose proof (field_range w 51 51 ltac:(lia));
  pose proof (field_range w 49 47 ltac:(lia)); pose proof (field_range w 46 43 ltac:(lia));
  pose proof (field_range w 42 39 ltac:(lia)); pose proof (field_range w 38 35 ltac:(lia)).
  repeat match goal with H : _ <= field _ _ _ < ?e |- _ =>
    let n := eval cbv in e in change e with n in H end.
  destruct (ch =? 0), (ch =? 1); lia.
Qed.

Lemma h_order_ok :
  h_order (rep4 (h_color1 w 0), rep4 (h_color1 w 1), rep4 (h_color1 w 2))
          (rep4 (h_color2 w 0), rep4 (h_color2 w 1), rep4 (h_color2 w 2)) =
  (h_value (h_color2 w) <=? h_value (h_color1 w)).
Proof.
  unfold h_order, h_value, rep4.
  destruct (h_color_range 0), (h_color_range 1), (h_color_range 2).
  apply eq_true_iff_eq. rewrite !orb_true_iff, !andb_true_iff, !orb_true_iff, !andb_true_iff.
  rewrite !Z.ltb_lt, !Z.leb_le, !Z.eqb_eq. lia.
Qed.

Lemma h_dist_ok m :
  h_dist m (rep4 (h_color1 w 0), rep4 (h_color1 w 1), rep4 (h_color1 w 2))
           (rep4 (h_color2 w 0), rep4 (h_color2 w 1), rep4 (h_color2 w 2)) (znth b 3) = Ok (h_distance w).
Proof.
  unfold h_dist. rewrite h_order_ok. unfold h_distance.
  destruct (h_value (h_color2 w) <=? h_value (h_color1 w)); unfold w.
  all: wf Hb b 0 34 34 4 2 3; wf Hb b 0 32 32 4 0 3.
  all: piece Hb b 3 (fun d => Z.lor (Z.land d 4) (Z.land (shl8 d 1) 2))
    (fun d => 4 * (d / 2 ^ 2 mod 2 ^ 1) + 2 * (d / 2 ^ 0 mod 2 ^ 1)).
  all: bnd (znth b 3 / 2 ^ 2 mod 2 ^ 1) 2; bnd (znth b 3 / 2 ^ 0 mod 2 ^ 1) 2.
  all: enum z B; enum z0 B0; reflexivity.
Qed.

Lemma planar_o_ok : planar_o (znth b 0) (znth b 1) (znth b 2) (znth b 3) =
  (planar_origin w 0, planar_origin w 1, planar_origin w 2).
Proof.
  unfold planar_o, planar_origin, w. cbn [Z.eqb Pos.eqb].
  rewrite (field_split' _ 41 40 39) by lia.
  change (40 - 1) with 39. change (2 ^ (40 - 39)) with 2.
  wf Hb b 0 62 57 7 1 0. wf Hb b 0 56 56 7 0 0. wf Hb b 0 54 49 6 1 1. wf Hb b 0 48 48 6 0 1.
  wf Hb b 0 44 43 5 3 2. wf Hb b 0 41 40 5 0 2. wf Hb b 0 39 39 4 7 3.
  repeat match goal with |- (_, _) = (_, _) => f_equal end.
  - pose proof (byte_znth b 0 Hb) as H. generalize dependent (znth b 0); intros d H. bytesweep d H.
  - piece Hb b 0 (fun d => Z.land (shl8 d 7) 0x80) (fun d => 128 * (d / 2 ^ 0 mod 2 ^ 1)).
    piece Hb b 1 (fun d => Z.land d 0x7e) (fun d => 2 * (d / 2 ^ 1 mod 2 ^ 6)).
    piece Hb b 0 (fun d => Z.land d 1) (fun d => d / 2 ^ 0 mod 2 ^ 1).
    bnd (znth b 0 / 2 ^ 0 mod 2 ^ 1) 2. bnd (znth b 1 / 2 ^ 1 mod 2 ^ 6) 64.
    enum z B; enum z0 B0; reflexivity.
  - piece Hb b 1 (fun d => Z.land (shl8 d 7) 0x80) (fun d => 128 * (d / 2 ^ 0 mod 2 ^ 1)).
    piece Hb b 2 (fun d => Z.land (shl8 d 2) 0x60) (fun d => 32 * (d / 2 ^ 3 mod 2 ^ 2)).
    piece Hb b 2 (fun d => Z.land (shl8 d 3) 0x18) (fun d => 8 * (d / 2 ^ 0 mod 2 ^ 2)).
    piece Hb b 3 (fun d => Z.land (Z.shiftr d 5) 4) (fun d => 4 * (d / 2 ^ 7 mod 2 ^ 1)).
    bnd (znth b 1 / 2 ^ 0 mod 2 ^ 1) 2. bnd (znth b 2 / 2 ^ 3 mod 2 ^ 2) 4.
    bnd (znth b 2 / 2 ^ 0 mod 2 ^ 2) 4. bnd (znth b 3 / 2 ^ 7 mod 2 ^ 1) 2.
    enum z B; enum z0 B0; enum z1 B1; enum z2 B2; reflexivity.
Qed.

Lemma planar_h_ok : planar_h (znth b 3) (znth b 4) (znth b 5) =
  (planar_horiz w 0, planar_horiz w 1, planar_horiz w 2).
Proof.
  unfold planar_h, planar_horiz, w. cbn [Z.eqb Pos.eqb].
  rewrite (field_split' _ 24 24 19) by lia.
  change (24 - 1) with 23. change (2 ^ (24 - 19)) with 32.
  wf Hb b 0 38 34 4 2 3. wf Hb b 0 32 32 4 0 3. wf Hb b 0 31 25 3 1 4. wf Hb b 0 24 24 3 0 4.
  wf Hb b 0 23 19 2 3 5.
  repeat match goal with |- (_, _) = (_, _) => f_equal end.
  - pose proof (byte_znth b 3 Hb) as H. generalize dependent (znth b 3); intros d H. bytesweep d H.
  - pose proof (byte_znth b 4 Hb) as H. generalize dependent (znth b 4); intros d H. bytesweep d H.
  - piece Hb b 4 (fun d => Z.land (shl8 d 7) 0x80) (fun d => 128 * (d / 2 ^ 0 mod 2 ^ 1)).
    piece Hb b 5 (fun d => Z.land (Z.shiftr d 1) 0x7c) (fun d => 4 * (d / 2 ^ 3 mod 2 ^ 5)).
    bnd (znth b 4 / 2 ^ 0 mod 2 ^ 1) 2. bnd (znth b 5 / 2 ^ 3 mod 2 ^ 5) 32.
    enum z B; enum z0 B0; reflexivity.
Qed.

Lemma planar_v_ok : planar_v (znth b 5) (znth b 6) (znth b 7) =
  (planar_vert w 0, planar_vert w 1, planar_vert w 2).
Proof.
  unfold planar_v, planar_vert, w. cbn [Z.eqb Pos.eqb].
  rewrite (field_split' _ 18 16 13), (field_split' _ 12 8 6) by lia.
  change (16 - 1) with 15. change (2 ^ (16 - 13)) with 8. change (8 - 1) with 7. change (2 ^ (8 - 6)) with 4.
  wf Hb b 0 18 16 2 0 5. wf Hb b 0 15 13 1 5 6. wf Hb b 0 12 8 1 0 6. wf Hb b 0 7 6 0 6 7. wf Hb b 0 5 0 0 0 7.
  repeat match goal with |- (_, _) = (_, _) => f_equal end.
  - piece Hb b 5 (fun d => Z.land (shl8 d 5) 0xe0) (fun d => 32 * (d / 2 ^ 0 mod 2 ^ 3)).
    piece Hb b 6 (fun d => Z.land (Z.shiftr d 3) 0x1c) (fun d => 4 * (d / 2 ^ 5 mod 2 ^ 3)).
    piece Hb b 5 (fun d => Z.land (Z.shiftr d 1) 3) (fun d => (d / 2 ^ 0 mod 2 ^ 3) / 2).
    bnd (znth b 5 / 2 ^ 0 mod 2 ^ 3) 8. bnd (znth b 6 / 2 ^ 5 mod 2 ^ 3) 8.
    enum z B; enum z0 B0; reflexivity.
  - piece Hb b 6 (fun d => Z.land (shl8 d 3) 0xf8) (fun d => 8 * (d / 2 ^ 0 mod 2 ^ 5)).
    piece Hb b 7 (fun d => Z.land (Z.shiftr d 5) 6) (fun d => 2 * (d / 2 ^ 6 mod 2 ^ 2)).
    piece Hb b 6 (fun d => Z.land (Z.shiftr d 4) 1) (fun d => (d / 2 ^ 0 mod 2 ^ 5) / 16).
    bnd (znth b 6 / 2 ^ 0 mod 2 ^ 5) 32. bnd (znth b 7 / 2 ^ 6 mod 2 ^ 2) 4.
    enum z B; enum z0 B0; reflexivity.
  - pose proof (byte_znth b 7 Hb) as H. generalize dependent (znth b 7); intros d H. bytesweep d H.
Qed.
End Modes.
