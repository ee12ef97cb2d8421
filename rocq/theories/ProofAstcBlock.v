(** * ASTC: whole blocks *)
From Verif Require Import Base BaseLemmas BitLemmas FieldLemmas ModelColor ModelBits ProofDecoder ProofBits ProofPvrInfo SpecBc ProofBc ModelF16 SpecF16 ProofF16 ModelAstc SpecAstc ProofAstcSeq ProofAstcParams ProofAstcEnd ProofAstcWeights ProofAstcRange ProofAstcColor SpecAstcCode.

(** ** A loop that stores computed entries *)
Lemma store_all (n : Z) (col : Z -> res Z) (T : Z -> Z) out : 0 <= n <= zlen out ->
  (forall i, 0 <= i < n -> col i = Ok (T i)) ->
  exists o, for_range 0 n (fun i o => let* c := col i in upd o i c) out = Ok o /\ filled 0 out o n T.
Proof.
  intros Hn Hc.
  apply (for_range_inv (fun i o => filled 0 out o i T)); [lia|apply filled_0|].
  intros i o Hi F. rewrite Hc by auto. cbn [bind]. rewrite upd_ok by (destruct F as [-> _]; lia).
  eexists; split; [reflexivity|]. apply filled_step; [lia|auto].
Qed.
Lemma store_inv (n : Z) (col : Z -> res Z) out o : 0 <= n ->
  for_range 0 n (fun i o => let* c := col i in upd o i c) out = Ok o ->
  forall i, 0 <= i < n -> exists c, col i = Ok c.
Proof.
  intros Hn E. refine (for_range_ok_inv (fun k _ => forall i, 0 <= i < k -> exists c, col i = Ok c) _ _ _ _ _ Hn _ _ E); [intros; lia|].
  clear E. intros k s s' Hk H E i Hi. apply bind_ok_inv in E as (c & E & _).
  destruct (Z.eq_dec i k) as [->|]; [eauto|]. apply H. lia.
Qed.

Lemma fill_front_ok out n c : 0 <= n <= zlen out ->
  exists o, fill_front out n c = Ok o /\ filled 0 out o n (fun _ => c).
Proof.
  intros H. unfold fill_front. rewrite slice_ok by lia. cbn [bind]. unfold copy_into.
  assert (zlen (repeat c (Z.to_nat n)) = n) as L by (unfold zlen; rewrite repeat_length; lia).
  assert (filled 0 out (repeat c (Z.to_nat n) ++ skipn (Z.to_nat n) out) n (fun _ => c)) as F.
  { split; [rewrite zlen_app, L, zlen_skipn; lia|]. intros q Hq.
    destruct (Z.ltb_spec q n).
    - rewrite app_nth1 by (rewrite repeat_length; lia). apply nth_repeat_lt. lia.
    - rewrite app_nth2 by (rewrite repeat_length; lia). rewrite repeat_length.
      rewrite <- (firstn_skipn (Z.to_nat n) out) at 2. unfold zlen in H.
      rewrite app_nth2 by (rewrite firstn_length; lia). f_equal. rewrite firstn_length. lia. }
  rewrite L. destruct (Z.leb_spec 0 0); [|lia]. destruct (Z.leb_spec (0 + n) (zlen out)); [|lia]. cbn [andb].
  eexists; split; [reflexivity|]. rewrite repeat_length. exact F.
Qed.

(** ** Interpolation of a channel *)
Lemma pick_ok m (tb : list bool) cem e0 e1 w hdr : 0 <= cem < 16 -> idx tb cem = Ok hdr ->
  0 <= e0 <= (if hdr : bool then 4095 else 255) -> 0 <= e1 <= (if hdr then 4095 else 255) -> 0 <= w <= 64 ->
  pick_color m tb cem e0 e1 w = Ok ((if hdr then hdr_texel else ldr_texel) e0 e1 w) /\
  is_byte ((if hdr then hdr_texel else ldr_texel) e0 e1 w).
Proof.
  intros Hc Ht H0 H1 Hw. unfold pick_color. rewrite Ht. cbn [bind].
  destruct hdr; [apply select_color_hdr_ok|apply select_color_ok]; lia.
Qed.
Lemma func_c cem : 0 <= cem < 16 -> idx FUNC_TABLE_C cem = Ok (hdr_color_mode cem).
Proof. intros H. enum cem H; reflexivity. Qed.
Lemma func_a cem : 0 <= cem < 16 -> idx FUNC_TABLE_A cem = Ok (hdr_alpha_mode cem).
Proof. intros H. enum cem H; reflexivity. Qed.

Lemma znth_app_l (a b : list Z) i : 0 <= i < zlen a -> znth (a ++ b) i = znth a i.
Proof. intros H. unfold znth, zlen in *. apply app_nth1. lia. Qed.

(** ** Texels from the parameters, end points and weights of a block *)
(** Texel [i] with colours from the word [V] and weights [wf]. *)
Definition texel_from (bw bh W V : Z) (wf : Z -> Z) (l : layout) (i : Z) : Z :=
  let g := l_grid l in
  let s := i mod bw in let t := i / bw in
  let p := if l_parts l =? 1 then 0 else partition (bfield W 13 10) (l_parts l) s t (bw * bh <? 31) in
  let cem := znth (l_cems l) p in
  let '(e0, e1) := end_points_with extend16 cem (fun k => colors_of V l (cem_start l p + k)) in
  let pn := if g_dual g then 2 else 1 in
  let ch c :=
    let plane := if g_dual g && (c =? l_plane l) then 1 else 0 in
    let w := infill bw bh (g_width g) (g_height g) pn wf plane s t in
    let hdr := if c =? 3 then hdr_alpha_mode cem else hdr_color_mode cem in
    (if hdr then hdr_texel else ldr_texel) (channel e0 c) (channel e1 c) w in
  astc_rgba (ch 0) (ch 1) (ch 2) (ch 3).

Section From.
Context (m : build) (buf : list Z) (bw bh : Z) (l : layout).
Context (Hb : bytes buf) (Hl : 16 <= zlen buf) (Hbw : 2 <= bw) (Hbh : 2 <= bh) (Ha : bw * bh <= 144).
Let W := astc_word buf.

Definition texel_part (i : Z) : Z :=
  if l_parts l =? 1 then 0 else partition (bfield W 13 10) (l_parts l) (i mod bw) (i / bw) (bw * bh <? 31).

Lemma part_range i : 1 <= l_parts l <= 4 -> 0 <= texel_part i < l_parts l.
Proof.
  intros P4. unfold texel_part. destruct (Z.eqb_spec (l_parts l) 1); [lia|]. apply partition_range; lia.
Qed.

Context (V : Z) (wf : Z -> Z) (d : BlockParams) (eps ws : list (list Z)).
Context (NR : reserved (znth buf 0) (znth buf 1) = false) (CL : cem_layout l) (LPl : 0 <= l_plane l < 4).
Context (EP : decode_block_params m buf = Ok d).
Context (Dd : bp_dual_plane d = g_dual (l_grid l)) (Dp : bp_plane_selector d = l_plane l) (Dn : bp_part_num d = l_parts l)
  (Dc : bp_cem d = l_cems l ++ repeat 0 (4 - Z.to_nat (l_parts l))).
Context (EE : decode_endpoints m buf d = Ok eps) (Le : zlen eps = 4).
Context (HE : forall p, 0 <= p < l_parts l -> nth (Z.to_nat p) eps [] = row_of (part_ends extend16 V l p)).
Context (EW : decode_weights m buf bw bh d = Ok ws) (H64 : forall i, 0 <= wf i <= 64).
Context (FW : filled [] (repeat [0; 0] 144) ws (bw * bh) (fun j =>
      let f p := infill bw bh (g_width (l_grid l)) (g_height (l_grid l)) (if g_dual (l_grid l) then 2 else 1) wf p (j mod bw) (j / bw) in
      [f 0; if g_dual (l_grid l) then f 1 else 0])).

Lemma texels_from : (forall i, 0 <= i < bw * bh -> is_u32 (texel_from bw bh W V wf l i)) /\
  forall out, bw * bh <= zlen out -> exists o, decode_astc_block m buf bw bh out = Ok o /\
    filled 0 out o (bw * bh) (texel_from bw bh W V wf l).
Proof.
  destruct FW as [Lws HWS].
  change (zlen (repeat [0; 0] 144)) with 144 in Lws.
  assert (exists ps, (if 1 <? l_parts l then select_partition m buf bw bh (l_parts l) else Ok (repeat 0 144)) = Ok ps /\ zlen ps = 144 /\
    forall j, 0 <= j < bw * bh -> (if 1 <? l_parts l then idx ps j else Ok 0) = Ok (texel_part j)) as (ps & EPs & Lps & HPs).
  { pose proof (cl_parts4 _ CL) as P4. unfold texel_part. destruct (Z.ltb_spec 1 (l_parts l)).
    - destruct (select_partition_ok m buf bw bh (l_parts l)) as (ps & E & L & H'); auto; try lia.
      exists ps. split; [exact E|]. split; [exact L|]. intros j Hj. rewrite idx_ok by lia. rewrite H' by auto.
      destruct (Z.eqb_spec (l_parts l) 1); [lia|]. reflexivity.
    - exists (repeat 0 144). split; [auto|]. split; [reflexivity|]. intros j Hj. destruct (Z.eqb_spec (l_parts l) 1); [reflexivity|lia]. }
  set (plane c := if g_dual (l_grid l) && (c =? l_plane l) then 1 else 0).
  set (wt i c := infill bw bh (g_width (l_grid l)) (g_height (l_grid l)) (if g_dual (l_grid l) then 2 else 1) wf (plane c) (i mod bw) (i / bw)).
  assert (forall i c, 0 <= wt i c <= 64) as WR by (intros; apply infill_range; intros; apply H64).
  assert (exists sel, (if g_dual (l_grid l) then upd [0; 0; 0; 0] (l_plane l) 1 else Ok [0; 0; 0; 0]) = Ok sel /\
    forall c, 0 <= c < 4 -> idx sel c = Ok (plane c)) as (sel & ES & HS).
  { unfold plane. pose proof (LPl) as LP. destruct (g_dual (l_grid l)); cbn [andb].
    - exists (replace_nth (Z.to_nat (l_plane l)) 1 [0; 0; 0; 0]). split; [apply upd_ok; exact LP|].
      intros c Hc. revert LP. generalize (l_plane l). intros q LP. enum q LP; enum c Hc; reflexivity.
    - exists [0; 0; 0; 0]. split; [auto|]. intros c Hc. enum c Hc; reflexivity. }
  assert (forall i c, 0 <= i < bw * bh -> 0 <= c < 4 ->
    (let* w := idx ws i in let* k := idx sel c in idx w k) = Ok (wt i c)) as HWT.
  { intros i c Hi Hc. rewrite (idx_ok_d []) by lia. cbn [bind]. rewrite HS by auto. cbn [bind].
    rewrite HWS by lia. destruct (Z.ltb_spec i (bw * bh)); [|lia]. cbv zeta. unfold wt, plane.
    destruct (g_dual (l_grid l)); cbn [andb]; [destruct (c =? l_plane l)|]; reflexivity. }
  set (colf i :=
    let* p := if 1 <? l_parts l then idx ps i else Ok 0 in
    let* cem := idx (l_cems l ++ repeat 0 (4 - Z.to_nat (l_parts l))) p in
    let channel (tab : list bool) (c : Z) : res Z :=
      let* ep := idx eps p in
      let* e0 := idx ep c in
      let* e1 := idx ep (c + 4) in
      let* w := idx ws i in
      let* k := idx sel c in
      let* w := idx w k in
      pick_color m tab cem e0 e1 w in
    let* r := channel FUNC_TABLE_C 0 in
    let* g := channel FUNC_TABLE_C 1 in
    let* b := channel FUNC_TABLE_C 2 in
    let* a := channel FUNC_TABLE_A 3 in
    Ok (color r g b a)).
  assert (forall i, 0 <= i < bw * bh -> colf i = Ok (texel_from bw bh W V wf l i) /\
    is_u32 (texel_from bw bh W V wf l i)) as HC.
  { intros i Hi. pose proof (part_range i (cl_parts4 _ CL)) as PR. set (p := texel_part i) in *.
    pose proof (cl_cems _ CL) as LC. pose proof (cl_parts4 _ CL) as P4.
    assert (In (znth (l_cems l) p) (l_cems l)) as Ic by (unfold znth, zlen in *; apply nth_In; lia).
    pose proof (cl_cem _ CL _ Ic) as Rc. set (cem := znth (l_cems l) p) in *.
    unfold texel_from. cbv zeta. fold (texel_part i). fold p. fold cem.
    assert (end_points_with extend16 cem (fun k => colors_of V l (cem_start l p + k)) = part_ends extend16 V l p) as -> by reflexivity.
    destruct (ends_in extend16 cem (fun k => colors_of V l (cem_start l p + k)) Rc) as [I0 I1].
    { intros k Hk. apply colors_range, (cl_cq _ CL). }
    specialize (HE p PR). 
    change (end_points_with extend16 cem (fun k => colors_of V l (cem_start l p + k))) with (part_ends extend16 V l p) in I0, I1.
    destruct (part_ends extend16 V l p) as [e0 e1]. destruct e0 as [[[r0 g0] b0] a0], e1 as [[[r1 g1] b1] a1]. cbn [fst snd] in I0, I1.
    unfold quad_in, channel_max, channel_hdr in I0, I1. cbn [Z.eqb Pos.eqb] in I0, I1.
    unfold colf. rewrite HPs by auto. cbn [bind].
    fold p. rewrite idx_ok by (rewrite zlen_app; pose proof (zlen_nonneg (repeat 0 (4 - Z.to_nat (l_parts l)))); lia). cbn [bind].
    rewrite znth_app_l by lia. fold cem.
    rewrite (idx_ok_d []), HE by lia. cbn [bind row_of].
    change (0 + 4) with 4. change (1 + 4) with 5. change (2 + 4) with 6. change (3 + 4) with 7.
    do 8 (match goal with |- context [idx [r0; g0; b0; a0; r1; g1; b1; a1] ?k] =>
      let e := eval lazy in (idx [r0; g0; b0; a0; r1; g1; b1; a1] k) in change (idx [r0; g0; b0; a0; r1; g1; b1; a1] k) with e end; cbn [bind]).
    assert (forall c (K : Z -> res Z), 0 <= c < 4 ->
      (let* w := idx ws i in let* k := idx sel c in let* w0 := idx w k in K w0) = K (wt i c)) as HK.
    { intros c K Hc. specialize (HWT i c Hi Hc). destruct (idx ws i) as [w| |]; try discriminate. cbn [bind] in *.
      destruct (idx sel c) as [k| |]; try discriminate. cbn [bind] in *. rewrite HWT. reflexivity. }
    rewrite (HK 0 (pick_color m FUNC_TABLE_C cem r0 r1)), (HK 1 (pick_color m FUNC_TABLE_C cem g0 g1)),
      (HK 2 (pick_color m FUNC_TABLE_C cem b0 b1)), (HK 3 (pick_color m FUNC_TABLE_A cem a0 a1)) by lia.
    pose proof (func_c cem Rc) as FC. pose proof (func_a cem Rc) as FA.
    destruct (pick_ok m _ cem r0 r1 (wt i 0) _ Rc FC) as [K0 Y0]; [apply I0|apply I1|apply WR|].
    destruct (pick_ok m _ cem g0 g1 (wt i 1) _ Rc FC) as [K1 Y1]; [apply I0|apply I1|apply WR|].
    destruct (pick_ok m _ cem b0 b1 (wt i 2) _ Rc FC) as [K2 Y2]; [apply I0|apply I1|apply WR|].
    destruct (pick_ok m _ cem a0 a1 (wt i 3) _ Rc FA) as [K3 Y3]; [apply I0|apply I1|apply WR|].
    rewrite K0, K1, K2, K3. cbn [bind]. rewrite color_rgba.
    change (channel (r0, g0, b0, a0) 0) with r0. change (channel (r0, g0, b0, a0) 1) with g0.
    change (channel (r0, g0, b0, a0) 2) with b0. change (channel (r0, g0, b0, a0) 3) with a0.
    change (channel (r1, g1, b1, a1) 0) with r1. change (channel (r1, g1, b1, a1) 1) with g1.
    change (channel (r1, g1, b1, a1) 2) with b1. change (channel (r1, g1, b1, a1) 3) with a1.
    cbn [Z.eqb Pos.eqb]. fold (plane 0) (plane 1) (plane 2) (plane 3). fold (wt i 0) (wt i 1) (wt i 2) (wt i 3).
    assert (forall r g b a, astc_rgba r g b a = rgba r g b a) as RG by (intros; unfold astc_rgba, rgba; ring).
    rewrite RG. split; [reflexivity|]. exact (rgba_u32 _ _ _ _ Y0 Y1 Y2 Y3). }
  split; [intros i Hi; apply HC; auto|].
  intros out Ho. unfold decode_astc_block.
  rewrite (idx_ok buf 0), (idx_ok buf 1) by lia. cbn [bind].
  unfold reserved in NR. 
  destruct ((znth buf 0 =? 252) && (Z.land (znth buf 1) 1 =? 1)) eqn:EV.
  { exfalso. apply andb_prop in EV as [V1 V2]. apply Z.eqb_eq in V1. rewrite V1, V2 in NR. discriminate. }
  rewrite NR. rewrite EP. cbn [bind]. rewrite EE. cbn [bind]. rewrite EW. cbn [bind].
  rewrite Dn, EPs. cbn [bind]. unfold applicate_color. rewrite Dn, Dd, Dp, Dc.
  rewrite ES. cbn [bind]. rewrite ua_ok by lia. cbn [bind].
  destruct (store_all (bw * bh) colf (texel_from bw bh W V wf l) out) as (o & EO & FO); [lia|intros; apply HC; auto|].
  exists o. split; [|exact FO]. rewrite <- EO. apply for_range_ext. intros i o' Hi. unfold colf.
  cbv zeta.
  repeat (match goal with |- context [bind ?x] => destruct x as [?| |]; cbn [bind]; try reflexivity end).
Qed.
End From.

(** ** Legal blocks *)
Section Legal.
Context (m : build) (buf : list Z) (bw bh : Z) (l : layout).
Context (Hb : bytes buf) (Hl : 16 <= zlen buf) (Hbw : 2 <= bw) (Hbh : 2 <= bh) (Ha : bw * bh <= 144).
Let W := astc_word buf.
Context (HL : block_layout W = Some l).

Lemma not_reserved : reserved (znth buf 0) (znth buf 1) = false.
Proof.
  pose proof (block_grid_ok buf Hb Hl) as G. cbv zeta in G. fold W in G.
  unfold block_layout in HL. destruct (block_mode W); [apply G|discriminate].
Qed.

Lemma legal_texels : exists T : Z -> Z, (forall i, T i = legal_texel_with extend16 bw bh W l i) /\
  (forall i, 0 <= i < bw * bh -> is_u32 (T i)) /\
  forall out, bw * bh <= zlen out -> exists o, decode_astc_block m buf bw bh out = Ok o /\ filled 0 out o (bw * bh) T.
Proof.
  pose proof (layout_facts buf l Hb Hl HL) as LO. fold W in LO.
  destruct (legal_params m buf l Hb Hl HL) as (range & EP & CA & CB & CR). cbv zeta in EP.
  set (d := mkParams _ _ _ _ _ _ _ _ _ _) in EP.
  destruct (decode_endpoints_ok m buf l d Hb Hl LO) as (eps & EE & Le & HE); [reflexivity|reflexivity|reflexivity|exact CR|exact CA|exact CB|].
  destruct (weight_values_ok m buf l d Hb Hl LO) as (wv & EW & Lw & HW); [reflexivity|reflexivity|]. fold W in HW, HE.
  pose proof (lo_width _ _ LO) as GW. pose proof (lo_height _ _ LO) as GH. pose proof (lo_wcount _ _ LO) as GC. pose proof (lo_wcount64 _ _ LO) as GC64.
  destruct (infill_ok m bw bh (g_width (l_grid l)) (g_height (l_grid l)) (g_dual (l_grid l)) wv (weights_of W l)) as (ws & EI & FW); auto.
  { apply small_grid; lia. } { intros; apply weights_range; auto. }
  exists (legal_texel_with extend16 bw bh W l). split; [auto|].
  apply (texels_from m buf bw bh l Hb Hl Hbw Hbh Ha W (weights_of W l) d eps ws); auto.
  - exact not_reserved.
  - eapply layout_cem; eauto.
  - apply (lo_plane _ _ LO).
  - unfold decode_weights. rewrite EW. cbn [bind]. exact EI.
  - intros; apply weights_range; auto.
Qed.
End Legal.

(** ** Void-extent blocks and reserved modes *)
Section Const.
Context (m : build) (buf : list Z) (bw bh : Z).
Context (Hb : bytes buf) (Hl : 16 <= zlen buf) (Ha : 0 <= bw * bh <= 144).
Let W := astc_word buf.

Lemma void_test : (znth buf 0 =? 252) && (Z.land (znth buf 1) 1 =? 1) = void_extent W.
Proof.
  unfold void_extent. change 9 with (8 + 1) at 1. rewrite bfield_join by lia.
  pose proof (byte_word buf Hb 0 ltac:(lia)) as E0. fold W in E0. change (8 * 0) with 0 in E0. rewrite <- E0.
  pose proof (word_byte buf Hb 1 0 1 ltac:(lia) ltac:(lia) ltac:(lia) ltac:(lia)) as E1. fold W in E1.
  change (8 * 1 + 0) with (0 + 8) in E1. rewrite E1.
  replace (bfield (znth buf 1) 0 1) with (Z.land (znth buf 1) 1).
  2: { rewrite <- (land_field (znth buf 1) 0 1) by lia. rewrite Z.shiftr_0_r. reflexivity. }
  pose proof (znth_byte buf Hb 0 ltac:(lia)). rewrite land_1. pose proof (Z.mod_pos_bound (znth buf 1) 2 ltac:(lia)).
  change (2 ^ 8) with 256.
  destruct (Z.eqb_spec (znth buf 0) 252); destruct (Z.eqb_spec (znth buf 1 mod 2) 1); cbn [andb]; symmetry; rewrite ?Z.eqb_eq, ?Z.eqb_neq; lia.
Qed.

Lemma half_code h : 0 <= h < 65536 ->
  astc_f16_to_u8 m h = if match m with Checked => h =? 0xfc00 | Wrapping => false end then Panic else Ok (code_half_byte h).
Proof.
  intros H. unfold code_half_byte. destruct (Z.eqb_spec h 0xfc00) as [->|N].
  - rewrite astc_f16_neg_inf. destruct m; reflexivity.
  - rewrite astc_f16_to_u8_ok by auto. destruct m; reflexivity.
Qed.
Lemma void_any : void_extent W = true -> forall out,
  decode_astc_block m buf bw bh out = if void_decodes m W then fill_front out (bw * bh) (code_void_texel W) else Panic.
Proof.
  intros HV out. unfold decode_astc_block.
  rewrite (idx_ok buf 0), (idx_ok buf 1) by lia. cbn [bind]. rewrite void_test, HV.
  assert (forall r g b a, astc_rgba r g b a = color r g b a) as RG by (intros; rewrite color_rgba; unfold astc_rgba, rgba; ring).
  match goal with |- bind ?x _ = _ => assert (x = if void_decodes m W then Ok (code_void_texel W) else Panic) as -> end.
  { unfold void_decodes, void_neg_inf, code_void_texel. rewrite HV, !RG. cbn [andb].
    assert (bit_set (znth buf 1) 2 = (bfield W 9 1 =? 1)) as ->.
    { pose proof (word_byte buf Hb 1 1 1 ltac:(lia) ltac:(lia) ltac:(lia) ltac:(lia)) as E1. fold W in E1.
      change (8 * 1 + 1) with 9 in E1. rewrite E1. unfold bit_set.
      pose proof (znth_byte buf Hb 1 ltac:(lia)) as R. revert R. generalize (znth buf 1). intros x R.
      assert (all_below 256 (fun x => Bool.eqb (negb (Z.land x 2 =? 0)) (bfield x 1 1 =? 1)) = true) as S by (vm_cast_no_check (eq_refl true)).
      apply Bool.eqb_prop. exact (all_below_spec _ _ S x R). }
    destruct (bfield W 9 1 =? 1).
    - assert (forall o, 0 <= o < 15 -> f16ptr_to_u8 m buf o =
        if match m with Checked => bfield W (8 * o) 16 =? 0xfc00 | Wrapping => false end then Panic
        else Ok (code_half_byte (bfield W (8 * o) 16))) as F.
      { intros o Hr. destruct (u16_word buf Hb Hl o Hr) as (s & E1 & E2). unfold f16ptr_to_u8. rewrite E1. cbn [bind].
        unfold u8ptr_to_u16 in E2. destruct (idx s 0) as [a| |]; try discriminate. cbn [bind] in *.
        destruct (idx s 1) as [b| |]; try discriminate. cbn [bind] in *. fold W in E2.
        assert (le_bytes [a; b] = bfield W (8 * o) 16) as -> by congruence.
        apply half_code. apply bfield_range. lia. }
      rewrite !F by lia. change (8 * 8) with (64 + 16 * 0). change (8 * 10) with (64 + 16 * 1).
      change (8 * 12) with (64 + 16 * 2). change (8 * 14) with (64 + 16 * 3). cbn [existsb andb].
      destruct m; [|reflexivity].
      destruct (bfield W (64 + 16 * 0) 16 =? 0xfc00), (bfield W (64 + 16 * 1) 16 =? 0xfc00), (bfield W (64 + 16 * 2) 16 =? 0xfc00),
        (bfield W (64 + 16 * 3) 16 =? 0xfc00); reflexivity.
    - rewrite !idx_ok by lia. cbn [bind].
      assert (forall k, 0 <= k < 15 -> bfield W (8 * k) 16 / 256 = znth buf (k + 1)) as F.
      { intros k Hk. change 16 with (8 + 8). rewrite bfield_join by lia. change (2 ^ 8) with 256.
        rewrite (byte_word buf Hb (k + 1)) by lia. fold W. replace (8 * (k + 1)) with (8 * k + 8) by lia.
        pose proof (bfield_range W (8 * k) 8 ltac:(lia)). change (2 ^ 8) with 256 in *.
        rewrite (Z.mul_comm 256), Z.div_add, Z.div_small by lia. lia. }
      pose proof (F 8 ltac:(lia)) as F8. pose proof (F 10 ltac:(lia)) as F10. pose proof (F 12 ltac:(lia)) as F12. pose proof (F 14 ltac:(lia)) as F14.
      change (64 + 16 * 0) with (8 * 8). change (64 + 16 * 1) with (8 * 10). change (64 + 16 * 2) with (8 * 12). change (64 + 16 * 3) with (8 * 14).
      rewrite F8, F10, F12, F14. destruct m; reflexivity. }
  destruct (void_decodes m W); [|reflexivity]. cbn [bind]. rewrite ua_ok by lia. reflexivity.
Qed.
Lemma void_block : void_extent W = true -> void_decodes m W = true -> forall out, bw * bh <= zlen out ->
  exists o, decode_astc_block m buf bw bh out = Ok o /\ filled 0 out o (bw * bh) (fun _ => code_void_texel W).
Proof. intros HV HD out Ho. rewrite void_any, HD by auto. apply fill_front_ok. lia. Qed.
Lemma void_panic : void_extent W = true -> void_decodes m W = false -> forall out, decode_astc_block m buf bw bh out = Panic.
Proof. intros HV HD out. rewrite void_any, HD by auto. reflexivity. Qed.

Lemma reserved_block : void_extent W = false -> block_mode W = None -> forall out, bw * bh <= zlen out ->
  exists o, decode_astc_block m buf bw bh out = Ok o /\ filled 0 out o (bw * bh) (fun _ => error_texel).
Proof.
  intros HV HM out Ho. unfold decode_astc_block.
  rewrite (idx_ok buf 0), (idx_ok buf 1) by lia. cbn [bind]. rewrite void_test, HV.
  pose proof (block_grid_ok buf Hb Hl) as G. cbv zeta in G. fold W in G. rewrite HM in G. unfold reserved in G. rewrite G.
  rewrite ua_ok by lia. cbn [bind]. apply fill_front_ok. lia.
Qed.
End Const.

(** ** Well-formed blocks *)
Lemma void_plain W : void_extent W = true -> void_neg_inf W = false -> code_void_texel W = void_texel W.
Proof.
  intros V. unfold void_neg_inf, code_void_texel, void_texel. rewrite V. destruct (bfield W 9 1 =? 1); [|reflexivity]. cbn [andb existsb]. unfold code_half_byte.
  destruct (bfield W (64 + 16 * 0) 16 =? 0xfc00), (bfield W (64 + 16 * 1) 16 =? 0xfc00), (bfield W (64 + 16 * 2) 16 =? 0xfc00),
    (bfield W (64 + 16 * 3) 16 =? 0xfc00); try discriminate. reflexivity.
Qed.
Lemma layout_none W : block_mode W = None -> block_layout W = None.
Proof. intros H. unfold block_layout. rewrite H. reflexivity. Qed.

Lemma layout_not_void buf l : bytes buf -> 16 <= zlen buf -> block_layout (astc_word buf) = Some l -> void_extent (astc_word buf) = false.
Proof.
  intros Hb Hl HL. rewrite <- void_test by auto. pose proof (not_reserved buf l Hb Hl HL) as NR. unfold reserved in NR.
  destruct (Z.eqb_spec (znth buf 0) 252) as [E|]; [|reflexivity]. rewrite E in NR. cbn [andb].
  destruct (Z.land (znth buf 1) 1 =? 1); [discriminate|reflexivity].
Qed.

Lemma well_formed_block m buf bw bh : bytes buf -> 16 <= zlen buf -> 2 <= bw -> 2 <= bh -> bw * bh <= 144 ->
  well_formed (astc_word buf) -> forall out, bw * bh <= zlen out ->
  exists o, decode_astc_block m buf bw bh out = Ok o /\
    filled 0 out o (bw * bh) (astc_texel_with extend16 bw bh (astc_word buf)).
Proof.
  intros Hb Hl Hw Hh Ha WF out Ho. unfold astc_texel_with.
  destruct (void_extent (astc_word buf)) eqn:V.
  - rewrite <- (void_plain _ V (proj1 WF)). apply void_block; auto; [lia|].
    unfold void_decodes. rewrite (proj1 WF). destruct m; reflexivity.
  - destruct (block_mode (astc_word buf)) eqn:M.
    + destruct (block_layout (astc_word buf)) as [l|] eqn:L.
      * destruct (legal_texels m buf bw bh l Hb Hl Hw Hh Ha L) as (T & HT & _ & H). destruct (H out Ho) as (o & E & F & G).
        exists o. split; [exact E|]. split; [exact F|]. intros q Hq. rewrite G by auto. rewrite HT. reflexivity.
      * destruct WF as [_ [WF|[WF|WF]]]; congruence.
    + rewrite layout_none by auto. apply reserved_block; auto. lia.
Qed.

(** ** When the deviating sign extension does not matter *)
Lemma ext_nonneg n x : 1 <= n <= 8 -> bfield x (n - 1) 1 = 0 -> extend16 n x = sign_extend n x.
Proof.
  intros Hn H. unfold extend16. rewrite Z.mod_small; [reflexivity|]. unfold sign_extend. cbv zeta.
  pose proof (Z.mod_pos_bound x (2 ^ n) ltac:(apply Z.pow_pos_nonneg; lia)) as B.
  assert (2 ^ n <= 2 ^ 8) by (apply Z.pow_le_mono_r; lia). change (2 ^ 8) with 256 in *.
  destruct (Z.leb_spec (2 ^ (n - 1)) (x mod 2 ^ n)); [|lia]. exfalso.
  unfold bfield in H. change (2 ^ 1) with 2 in H.
  assert (2 ^ n = 2 ^ (n - 1) * 2) as E by (replace n with (Z.succ (n - 1)) at 1 by lia; rewrite Z.pow_succ_r by lia; lia).
  assert (0 < 2 ^ (n - 1)) by (apply Z.pow_pos_nonneg; lia).
  rewrite E in H1, B. rewrite Z.rem_mul_r in H1 by lia. rewrite H in H1.
  pose proof (Z.mod_pos_bound x (2 ^ (n - 1)) ltac:(lia)). lia.
Qed.

Lemma dbits_range mode : 0 <= mode < 8 -> 1 <= hdr11_dbits mode <= 8.
Proof. intros H. enum mode H; (split; apply Z.leb_le; reflexivity). Qed.

Lemma hdr11_plain v0 v1 v2 v3 v4 v5 a0 a1 :
  (hdr11_majcomp v4 v5 = 3 \/
    let d := hdr11_dbits (hdr11_mode v1 v2 v3) in bfield v4 (d - 1) 1 = 0 /\ bfield v5 (d - 1) 1 = 0) ->
  hdr11 extend16 v0 v1 v2 v3 v4 v5 a0 a1 = hdr11 sign_extend v0 v1 v2 v3 v4 v5 a0 a1.
Proof.
  intros [H|H]; unfold hdr11; cbv zeta.
  - rewrite H. reflexivity.
  - cbv zeta in H. destruct H as [H4 H5].
    assert (1 <= hdr11_dbits (hdr11_mode v1 v2 v3) <= 8).
    { apply dbits_range. unfold hdr11_mode.
      pose proof (bfield_range v1 7 1 ltac:(lia)). pose proof (bfield_range v2 7 1 ltac:(lia)). pose proof (bfield_range v3 7 1 ltac:(lia)).
      change (2 ^ 1) with 2 in *. lia. }
    rewrite (ext_nonneg _ v4), (ext_nonneg _ v5) by auto. reflexivity.
Qed.

Lemma ends_plain cem v : 0 <= cem < 16 -> no_negative_delta cem v -> end_points_with extend16 cem v = end_points cem v.
Proof.
  intros Hc H. unfold end_points, no_negative_delta in *.
  enum cem Hc; cbn [end_points_with]; try destruct (hdr_alpha (v 6) (v 7));
    lazymatch goal with
    | |- hdr11 _ _ _ _ _ _ _ _ _ = _ => apply hdr11_plain, H; cbn [In]; tauto
    | _ => reflexivity
    end.
Qed.

Lemma texel_plain buf bw bh i : bytes buf -> 16 <= zlen buf -> plain_deltas (astc_word buf) ->
  astc_texel_with extend16 bw bh (astc_word buf) i = astc_texel bw bh (astc_word buf) i.
Proof.
  intros Hb Hl H. unfold astc_texel, astc_texel_with. destruct (void_extent _); [reflexivity|].
  destruct (block_layout (astc_word buf)) as [l|] eqn:L; [|reflexivity].
  pose proof (layout_facts buf l Hb Hl L) as LO. pose proof (part_range buf bw bh l i (lo_parts4 _ _ LO)) as PR.
  specialize (H l _ L PR). unfold texel_part in *. unfold legal_texel_with. cbv zeta.
  set (p := if l_parts l =? 1 then 0 else _) in *.
  assert (0 <= znth (l_cems l) p < 16) as Rc.
  { apply (lo_cem _ _ LO). unfold znth. apply nth_In. pose proof (lo_cems _ _ LO) as LC. unfold zlen in LC. lia. }
  rewrite (ends_plain _ _ Rc H). reflexivity.
Qed.

(** ** The result does not depend on the buffer *)
Lemma block_uniform m buf bw bh out o : 0 <= bw -> 0 <= bh -> bw * bh <= 144 -> bw * bh <= zlen out ->
  decode_astc_block m buf bw bh out = Ok o ->
  exists T, forall out, bw * bh <= zlen out ->
    exists o, decode_astc_block m buf bw bh out = Ok o /\ filled 0 out o (bw * bh) T.
Proof.
  intros Hw Hh Ha Ho E. assert (0 <= bw * bh) by (apply Z.mul_nonneg_nonneg; lia). unfold decode_astc_block in *.
  apply bind_ok_inv in E as (b0 & E0 & E). rewrite E0. cbn [bind].
  apply bind_ok_inv in E as (b1 & E1 & E). rewrite E1. cbn [bind].
  destruct ((b0 =? 252) && (Z.land b1 1 =? 1)).
  { apply bind_ok_inv in E as (c & Ec & E). exists (fun _ => c). intros out' Ho'. rewrite Ec. cbn [bind].
    rewrite ua_ok by lia. cbn [bind]. apply fill_front_ok. lia. }
  destruct ((Z.land b0 195 =? 192) && (Z.land b1 1 =? 1) || (Z.land b0 15 =? 0)).
  { exists (fun _ => color 255 0 255 255). intros out' Ho'. rewrite ua_ok by lia. cbn [bind]. apply fill_front_ok. lia. }
  apply bind_ok_inv in E as (d & Ed & E). rewrite Ed. cbn [bind].
  apply bind_ok_inv in E as (eps & Ee & E). rewrite Ee. cbn [bind].
  apply bind_ok_inv in E as (ws & Ew & E). rewrite Ew. cbn [bind].
  apply bind_ok_inv in E as (ps & Ep & E). rewrite Ep. cbn [bind].
  unfold applicate_color in *.
  apply bind_ok_inv in E as (sel & Es & E). rewrite Es. cbn [bind].
  rewrite ua_ok in E by lia. cbn [bind] in E. 
  set (colf i :=
    let* p := if 1 <? bp_part_num d then idx ps i else Ok 0 in
    let* cem := idx (bp_cem d) p in
    let channel (tab : list bool) (c : Z) : res Z :=
      let* ep := idx eps p in
      let* e0 := idx ep c in
      let* e1 := idx ep (c + 4) in
      let* w := idx ws i in
      let* k := idx sel c in
      let* w := idx w k in
      pick_color m tab cem e0 e1 w in
    let* r := channel FUNC_TABLE_C 0 in
    let* g := channel FUNC_TABLE_C 1 in
    let* b := channel FUNC_TABLE_C 2 in
    let* a := channel FUNC_TABLE_A 3 in
    Ok (color r g b a)).
  match type of E with for_range _ _ ?f _ = _ => set (body := f) in E;
    assert (forall out, for_range 0 (bw * bh) body out = for_range 0 (bw * bh) (fun i o => let* c := colf i in upd o i c) out) as X end.
  { intros out'. apply for_range_ext. intros i o' Hi. unfold colf, body. cbv zeta.
    repeat (match goal with |- context [bind ?x] => destruct x as [?| |]; cbn [bind]; try reflexivity end). }
  rewrite X in E.
  exists (fun i => match colf i with Ok c => c | _ => 0 end).
  intros out' Ho'. rewrite ua_ok by lia. cbn [bind]. rewrite X. apply store_all; [lia|].
  intros i Hi. destruct (store_inv _ _ _ _ H E i Hi) as (c & ->). reflexivity.
Qed.
