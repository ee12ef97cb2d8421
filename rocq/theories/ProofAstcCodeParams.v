(** * ASTC: parameters of any block with a mode *)
From Verif Require Import Base BaseLemmas BitLemmas FieldLemmas ModelColor ModelBits ProofDecoder ProofBits ProofPvrInfo ProofOversize ModelAstc SpecAstc SpecAstcCode ProofAstcSeq ProofAstcParams.

(** ** Reading outside the block *)
Lemma slice_panic {A} (l : list A) a b : zlen l < b -> slice l a b = Panic.
Proof. intros H. unfold slice. destruct (Z.leb_spec b (zlen l)); [lia|]. rewrite andb_false_r. reflexivity. Qed.
Lemma slice_cross {A} (l : list A) a b : b < a -> slice l a b = Panic.
Proof. intros H. unfold slice. destruct (Z.leb_spec a b); [lia|]. rewrite andb_false_r. reflexivity. Qed.

Lemma getbits_below m buf x n : -4294967296 <= x < 0 -> 0 <= n <= 25 -> zlen buf < 2 ^ 60 ->
  getbits m buf (2 ^ 64 + x) n = Panic.
Proof.
  intros Hx Hn Hl. pose proof (zlen_nonneg buf). change (2 ^ 60) with 1152921504606846976 in *.
  destruct (Z.lt_ge_cases (x + n) 0).
  { apply getbits_panic; try lia; change (2 ^ 64) with 18446744073709551616; lia. }
  unfold getbits, getbits_raw. cbv zeta. change (2 ^ 64) with 18446744073709551616.
  
  unfold ua at 1. change (2 ^ 64) with 18446744073709551616.
  destruct (Z.ltb_spec (18446744073709551616 + x + n) 18446744073709551616); [lia|]. rewrite andb_false_r.
  destruct m; [reflexivity|]. cbn [bind].
  replace ((18446744073709551616 + x + n) mod 18446744073709551616) with (x + n) by (apply Z.mod_unique with 1; lia).
  assert (2305843008676823040 <= (18446744073709551616 + x) / 8) by (apply Z.div_le_lower_bound; lia).
  assert (0 <= div_ceil (x + n) 8 <= 4) by (rewrite div_ceil8 by lia; split; [apply Z.div_pos; lia|apply Z.div_le_upper_bound; lia]).
  set (o := (18446744073709551616 + x) / 8) in *. assert (o < 2305843009213693952) by (apply Z.div_lt_upper_bound; lia).
  rewrite ua_wrap by lia. cbn [bind]. change (2 ^ 64) with 18446744073709551616.
  replace ((div_ceil (x + n) 8 - o) mod 18446744073709551616) with (18446744073709551616 + (div_ceil (x + n) 8 - o)) by (apply Z.mod_unique with (-1); lia).
  rewrite (slice_panic [0; 0; 0; 0]) by (change (zlen [0; 0; 0; 0]) with 4; lia). reflexivity.
Qed.

Lemma getbits_at m buf x n v : -4294967296 <= x -> x <= 128 -> 0 <= n <= 25 -> zlen buf < 2 ^ 60 ->
  (let* o := ua m 64 x in getbits m buf o n) = Ok v -> 0 <= x.
Proof.
  intros H1 H2 Hn Hl E. destruct (Z.le_gt_cases 0 x) as [|Hx]; auto. exfalso.
  unfold ua in E. destruct (Z.leb_spec 0 x); [lia|]. cbn [andb] in E. destruct m; [discriminate|]. cbn [bind] in E.
  replace (x mod 2 ^ 64) with (2 ^ 64 + x) in E by (apply Z.mod_unique with (-1); change (2 ^ 64) with 18446744073709551616; lia).
  rewrite getbits_below in E by (auto; lia). discriminate.
Qed.

(** ** Colour range *)
Lemma find_code n room qs : 0 <= n -> forall pre : list (radix * Z),
  let r := find_cem_range (zlen pre) (map (fun kn => radix_code (fst kn)) qs) (map snd qs) n room in
  match find (fun '(k, b) => seq_size k b n <=? room) qs with
  | Some q => 0 <= r < zlen (pre ++ qs) /\ nth (Z.to_nat r) (pre ++ qs) (Bits, 0) = q
  | None => r = 0
  end.
Proof.
  intros Hn. induction qs as [|[k b] qs IH]; intros pre; [reflexivity|].
  cbn [map find find_cem_range fst snd]. rewrite endpoint_bits_ok by auto.
  destruct (seq_size k b n <=? room).
  - cbv zeta. rewrite zlen_app, zlen_cons. pose proof (zlen_nonneg pre). pose proof (zlen_nonneg qs). split; [lia|].
    unfold zlen. rewrite Nat2Z.id, app_nth2, Nat.sub_diag by lia. reflexivity.
  - specialize (IH (pre ++ [(k, b)])). rewrite <- app_assoc in IH. cbn [app] in IH.
    rewrite zlen_app in IH. change (zlen [(k, b)]) with 1 in IH. exact IH.
Qed.

Lemma code_range n room remain : 0 <= n <= 32 -> remain = room /\ 0 <= room \/ room < 0 /\ 256 <= remain ->
  let i := find_cem_range 0 CEM_TABLE_A CEM_TABLE_B n remain in
  let q := code_quant n room in
  0 <= i < 19 /\ znth CEM_TABLE_A i = radix_code (fst q) /\ znth CEM_TABLE_B i = snd q /\ In q code_quants /\
  (seq_size (fst q) (snd q) n <= room \/ q = (Bits, 8)).
Proof.
  intros Hn Hr i q.
  assert (forall j, 0 <= j < 19 -> nth (Z.to_nat j) code_quants (Bits, 0) = q ->
    0 <= j < 19 /\ znth CEM_TABLE_A j = radix_code (fst q) /\ znth CEM_TABLE_B j = snd q /\ In q code_quants) as K.
  { intros j Hj E. split; [exact Hj|].
    change CEM_TABLE_A with (map (fun kn => radix_code (fst kn)) code_quants). change CEM_TABLE_B with (map snd code_quants).
    unfold znth. rewrite <- E. split; [|split].
    - exact (map_nth (fun kn => radix_code (fst kn)) code_quants (Bits, 0) (Z.to_nat j)).
    - exact (map_nth snd code_quants (Bits, 0) (Z.to_nat j)).
    - apply nth_In. change (length code_quants) with 19%nat. lia. }
  destruct Hr as [[-> Hr]|[Hr Hm]].
  - pose proof (find_code n room code_quants ltac:(lia) []) as F. cbv zeta in F. cbn [app] in F.
    change (find_cem_range (zlen []) _ _ n room) with i in F. change (zlen code_quants) with 19 in F.
    unfold q, code_quant in *. destruct (find _ code_quants) as [q'|] eqn:EF.
    + pose proof (find_some _ _ EF) as [_ L]. destruct F as [F1 F2]. destruct (K i F1 F2) as (A & B & C & D).
      repeat split; auto; try apply F1. left. destruct q'. apply Z.leb_le in L. exact L.
    + rewrite F. destruct (K 0 ltac:(lia) eq_refl) as (A & B & C & D). repeat split; auto; lia.
  - assert (q = (Bits, 8)) as Eq.
    { unfold q, code_quant. destruct (find _ code_quants) as [q'|] eqn:EF; [|reflexivity]. exfalso.
      pose proof (find_some _ _ EF) as [I L]. destruct q' as [k b]. apply Z.leb_le in L.
      assert (0 <= b) by (cbn [In code_quants color_quants app] in I; repeat (destruct I as [I|I]; [injection I as <- <-; lia|]); contradiction).
      pose proof (seq_size_nonneg k b n ltac:(auto) ltac:(lia)). lia. }
    assert (i = 0) as Ei.
    { unfold i. change CEM_TABLE_A with (0 :: tl CEM_TABLE_A). change CEM_TABLE_B with (8 :: tl CEM_TABLE_B).
      cbn [find_cem_range]. change (endpoint_bits_of 0 8 n) with (n * 8). destruct (Z.leb_spec (n * 8) remain); [reflexivity|lia]. }
    rewrite Ei. destruct (K 0 ltac:(lia) (eq_sym Eq)) as (A & B & C & D). repeat split; auto; lia.
Qed.

(** ** Bounds of the weight grid *)
Definition grid_bounds (x : Z) : bool :=
  match block_mode x with
  | None => true
  | Some g =>
  match weight_quant (g_range g) with
  | None => false
  | Some (k, n) =>
      let count := g_width g * g_height g * (if g_dual g then 2 else 1) in
      let size := seq_size k n count in
      (count <=? 120) && (size <=? 1000) &&
      (if g_dual g then (109 <? size) || (g_width g * (g_height g + 1) <=? 63)
       else g_width g * (g_height g + 1) <=? 126)
  end
  end.
Lemma grid_bounds_sweep : all_below 2048 grid_bounds = true.
Proof. vm_cast_no_check (eq_refl true). Qed.
Lemma grid_bounds_ok W : grid_bounds W = true.
Proof.
  pose proof (all_below_spec _ _ grid_bounds_sweep (W mod 2048) (Z.mod_pos_bound W 2048 ltac:(lia))) as S.
  unfold grid_bounds in *. assert (block_mode W = block_mode (W mod 2048)) as ->; auto.
  apply block_mode_ext. intros i Hi. symmetry. change 2048 with (2 ^ 11). apply bfield_mod; lia.
Qed.

(** ** What the layout of any block promises *)
Record code_ok (W : Z) (l : layout) : Prop := {
  co_mode : block_mode W = Some (l_grid l);
  co_width : 2 <= g_width (l_grid l) <= 12;
  co_height : 2 <= g_height (l_grid l) <= 12;
  co_range : 2 <= g_range (l_grid l) <= 15;
  co_quant : weight_quant (g_range (l_grid l)) = Some (l_wq l);
  co_taba : znth WEIGHT_PREC_TABLE_A (g_range (l_grid l)) = radix_code (fst (l_wq l));
  co_tabb : znth WEIGHT_PREC_TABLE_B (g_range (l_grid l)) = snd (l_wq l);
  co_wcount : l_wcount l = g_width (l_grid l) * g_height (l_grid l) * (if g_dual (l_grid l) then 2 else 1);
  co_wcount120 : 1 <= l_wcount l <= 120;
  co_wbits : l_wbits l = seq_size (fst (l_wq l)) (snd (l_wq l)) (l_wcount l);
  co_wbits1000 : 0 <= l_wbits l <= 1000;
  co_grid : if g_dual (l_grid l) then 109 < l_wbits l \/ g_width (l_grid l) * (g_height (l_grid l) + 1) <= 63
            else g_width (l_grid l) * (g_height (l_grid l) + 1) <= 126;
  co_parts : l_parts l = bfield W 11 2 + 1;
  co_parts4 : 1 <= l_parts l <= 4;
  co_cems : l_cems l = cems_of W (l_wbits l);
  co_cemslen : zlen (l_cems l) = l_parts l;
  co_cem : forall c, In c (l_cems l) -> 0 <= c < 16;
  co_plane : l_plane l = if g_dual (l_grid l) then bfield W (128 - l_wbits l - mode_bits W - 2) 2 else 0;
  co_cvalues : l_cvalues l = zsum (map cem_values (l_cems l));
  co_cvalues32 : 0 <= l_cvalues l <= 32;
  co_cstart : l_cstart l = if l_parts l =? 1 then 17 else 29;
  co_cq : l_cq l = code_quant (l_cvalues l) (layout_room W l);
  co_extra : 0 <= mode_bits W <= 8
}.

Section Code.
Context (m : build) (buf : list Z) (l : layout) (Hb : bytes buf) (Hl : 16 <= zlen buf) (Hl2 : zlen buf < 2 ^ 60).
Let W := astc_word buf.
Context (HL : code_layout W = Some l).

Lemma code_facts : code_ok W l.
Proof.
  unfold code_layout in HL. pose proof (block_grid_ok buf Hb Hl) as G. cbv zeta in G. fold W in G.
  pose proof (grid_bounds_ok W) as GB. unfold grid_bounds in GB.
  destruct (block_mode W) as [g|] eqn:BM; [|discriminate].
  destruct G as (_ & G & Gw & Gh & Gn & Gr & k & n & Q & TA & TB). rewrite Q in HL, GB.
  set (wcount := g_width g * g_height g * (if g_dual g then 2 else 1)) in *.
  set (wbits := seq_size k n wcount) in *. set (parts := bfield W 11 2 + 1) in *.
  rewrite !andb_true_iff in GB. destruct GB as [[B1 B2] B3]. apply Z.leb_le in B1, B2.
  change (if parts =? 1 then [bfield W 13 4] else if bfield W 23 2 =? 0 then repeat (bfield W 25 4) (Z.to_nat parts)
    else map (fun i => 4 * (bfield W 23 2 - 1 + bfield (bfield W 25 4 + 16 * bfield W (128 - wbits - mode_bits W) (mode_bits W)) i 1)
       + bfield (bfield W 25 4 + 16 * bfield W (128 - wbits - mode_bits W) (mode_bits W)) (parts + 2 * i) 2) (zrange 0 parts))
    with (cems_of W wbits) in HL. cbv zeta in HL. injection HL as <-.
  pose proof (weight_quants_ok _ _ _ Q) as QO.
  assert (0 <= n) by (destruct k; cbn [quant_ok] in QO; lia).
  assert (1 <= g_width g * g_height g) as A0 by nia.
  assert (1 <= wcount) by (unfold wcount; destruct (g_dual g); lia).
  pose proof (seq_size_nonneg k n wcount ltac:(auto) ltac:(lia)) as A1. fold wbits in A1.
  assert (0 <= parts - 1 < 4) as P4 by (unfold parts; pose proof (bfield_range W 11 2 ltac:(lia)); change (2 ^ 2) with 4 in *; lia).
  pose proof (cems_range buf wbits) as CRg. fold W in CRg.
  pose proof (zsum_values _ CRg) as Hcv.
  assert (zlen (cems_of W wbits) = parts) as LC by (apply cems_length; auto).
  constructor; cbn [l_grid l_wq l_wcount l_wbits l_parts l_cems l_plane l_cstart l_cvalues l_cq fst snd]; auto; try lia.
  - destruct (g_dual g); [|apply Z.leb_le; exact B3]. apply orb_prop in B3 as [B3|B3]; [left; apply Z.ltb_lt; auto|right; apply Z.leb_le; auto].
  - unfold mode_bits. fold parts. destruct (Z.eqb_spec parts 1); cbn [orb]; [lia|]. destruct (bfield W 23 2 =? 0); lia.
Qed.

(** The fields below the weights can be read. *)
Definition below_ok : Prop :=
  (mode_bits W = 0 \/ 0 <= (if l_parts l =? 3 then 122 else 128 - mode_bits W) - l_wbits l) /\
  (g_dual (l_grid l) = true -> 0 <= 128 - l_wbits l - mode_bits W - 2).
Definition params_ok : Prop := 0 <= layout_room W l \/ m = Wrapping /\ below_ok.

Lemma room_below : code_ok W l -> 0 <= layout_room W l -> below_ok.
Proof.
  intros CO H. unfold layout_room in H. pose proof (co_cstart _ _ CO) as CS. pose proof (co_extra _ _ CO). pose proof (co_parts4 _ _ CO).
  split.
  - right. rewrite CS in H. destruct (Z.eqb_spec (l_parts l) 3) as [E|]; destruct (g_dual (l_grid l)); destruct (l_parts l =? 1); lia.
  - intros D. rewrite D in H. rewrite CS in H. destruct (l_parts l =? 1); lia.
Qed.

Lemma cem_pos : code_ok W l -> (mode_bits W = 0 \/ 0 <= (if l_parts l =? 3 then 122 else 128 - mode_bits W) - l_wbits l) <->
  (l_parts l = 1 \/ bfield W 23 2 = 0 \/ l_wbits l <= (if l_parts l =? 2 then 126 else if l_parts l =? 3 then 122 else 120)).
Proof.
  intros CO. pose proof (co_parts4 _ _ CO) as P4. pose proof (co_parts _ _ CO) as EP.
  unfold mode_bits. cbv zeta. rewrite <- EP.
  destruct (Z.eqb_spec (l_parts l) 1); cbn [orb]; [tauto|]. destruct (Z.eqb_spec (bfield W 23 2) 0); [tauto|].
  assert (l_parts l = 2 \/ l_parts l = 3 \/ l_parts l = 4) as [E|[E|E]] by lia; rewrite E; cbn [Z.eqb Pos.eqb]; lia.
Qed.

Lemma code_params : params_ok ->
  let g := l_grid l in
  exists range, decode_block_params m buf =
    Ok (mkParams (g_width g) (g_height g) (l_parts l) (g_dual g) (l_plane l) (g_range g) (l_wcount l)
         (l_cems l ++ repeat 0 (4 - Z.to_nat (l_parts l))) range (l_cvalues l)) /\
    znth CEM_TABLE_A range = radix_code (fst (l_cq l)) /\ znth CEM_TABLE_B range = snd (l_cq l) /\
    0 <= range < 19.
Proof.
  intros HP g. pose proof code_facts as CO.
  assert (below_ok) as BO by (destruct HP as [HP|[_ HP]]; [apply room_below; auto|exact HP]).
  pose proof (block_grid_ok buf Hb Hl) as G. cbv zeta in G. fold W in G. rewrite (co_mode _ _ CO) in G. fold g in G.
  destruct G as (_ & G & _).
  pose proof (co_wcount120 _ _ CO) as WC. pose proof (co_wbits1000 _ _ CO) as WB. pose proof (co_parts4 _ _ CO) as P4.
  pose proof (co_extra _ _ CO) as XB. pose proof (co_cvalues32 _ _ CO) as CV. pose proof (co_parts _ _ CO) as EP.
  pose proof (co_cstart _ _ CO) as CS. pose proof (co_range _ _ CO) as GR. fold g in GR.
  set (room := layout_room W l) in *.
  set (remain := room mod 2 ^ 64).
  assert (-1200 <= room <= 111) as RB.
  { unfold room, layout_room. rewrite CS. destruct (g_dual (l_grid l)), (l_parts l =? 1); lia. }
  assert (remain = room /\ 0 <= room \/ room < 0 /\ 256 <= remain) as RM.
  { unfold remain. destruct (Z.le_gt_cases 0 room); [left; split; auto; apply Z.mod_small; lia|right; split; auto].
    replace (room mod 2 ^ 64) with (2 ^ 64 + room) by (apply Z.mod_unique with (-1); lia). lia. }
  destruct (code_range (l_cvalues l) room remain CV RM) as (R1 & R2 & R3 & _). cbv zeta in *.
  pose proof (co_cq _ _ CO) as CQ. fold room in CQ. rewrite <- CQ in R2, R3.
  exists (find_cem_range 0 CEM_TABLE_A CEM_TABLE_B (l_cvalues l) remain). split; [|auto].
  unfold decode_block_params. rewrite G. cbn [bind]. rewrite (idx_ok buf 1) by lia. cbn [bind].
  assert (Z.land (Z.shiftr (znth buf 1) 3) 3 + 1 = l_parts l) as ->.
  { change 3 with (2 ^ 2 - 1) at 2. rewrite land_field by lia. rewrite <- (word_byte buf) by (auto; lia). rewrite EP. reflexivity. }
  assert ((if g_dual g then g_width g * g_height g * 2 else g_width g * g_height g) = l_wcount l) as ->
    by (rewrite (co_wcount _ _ CO); fold g; destruct (g_dual g); lia).
  rewrite !idx_ok by (split; [lia|]; apply Z.lt_le_trans with 16; [lia|vm_compute; discriminate]). cbn [bind].
  pose proof (co_taba _ _ CO) as TA. pose proof (co_tabb _ _ CO) as TB. fold g in TA, TB. rewrite TA, TB. rewrite weight_bits_ok by lia. rewrite <- (co_wbits _ _ CO).
  assert (block_cem m buf (l_parts l) (l_wbits l) = Ok (if l_parts l =? 1 then 0 else bfield W 23 2, l_cems l ++ repeat 0 (4 - Z.to_nat (l_parts l)),
      (if l_parts l =? 1 then 17 else 29) + mode_bits W)) as ->.
  { rewrite (co_cems _ _ CO). rewrite EP. unfold W. apply block_cem_ok; auto; [lia|]. fold W. rewrite <- EP.
    apply cem_pos; auto. apply BO. }
  cbn [bind]. set (wb := l_wbits l) in *. set (parts := l_parts l) in *.
  assert (mode_bits W = if negb ((if parts =? 1 then 0 else bfield W 23 2) =? 0) then 3 * parts - 4 else 0) as XE.
  { unfold mode_bits. rewrite <- EP. fold parts. destruct (parts =? 1); cbn [orb]; auto. destruct (bfield W 23 2 =? 0); auto. }
  match goal with |- context [if g_dual g then ?e else ?f] =>
    assert ((if g_dual g then e else f) = Ok ((if parts =? 1 then 17 else 29) + mode_bits W + (if g_dual g then 2 else 0), l_plane l)) as -> end.
  { rewrite (co_plane _ _ CO). fold g. destruct BO as [_ BO]. fold g in BO. destruct (g_dual g); [|rewrite Z.add_0_r; reflexivity].
    specialize (BO eq_refl). fold wb in BO.
    set (c := negb ((if parts =? 1 then 0 else bfield W 23 2) =? 0)) in *.
    assert ((if c then let* x := ua m 64 (130 - wb) in ua m 64 (x - parts * 3) else ua m 64 (126 - wb)) =
      Ok (128 - wb - mode_bits W - 2)) as ->.
    { destruct c.
      - rewrite (ua_ok m 64 (130 - wb)) by lia. cbn [bind]. rewrite ua_ok by lia. f_equal. lia.
      - rewrite ua_ok by lia. f_equal. lia. }
    cbn [bind]. rewrite getbits_word by (auto; lia). cbn [bind]. reflexivity. }
  cbn [bind].
  assert (0 <= (if g_dual g then 2 else 0) <= 2) by (destruct (g_dual g); lia).
  assert (17 <= (if parts =? 1 then 17 else 29) <= 29) by (destruct (parts =? 1); lia).
  rewrite (ua_ok m 64 (128 - _)) by lia. cbn [bind].
  replace (128 - ((if parts =? 1 then 17 else 29) + mode_bits W + (if g_dual g then 2 else 0)) - wb) with room
    by (unfold room, layout_room; rewrite CS; fold g wb parts; lia).
  assert (ua m 64 room = Ok remain) as ->.
  { destruct HP as [HP|[-> _]]; [|apply ua_wrap; lia]. rewrite ua_ok by lia. unfold remain. rewrite Z.mod_small by lia. reflexivity. }
  cbn [bind].
  pose proof (co_cemslen _ _ CO) as LC. fold parts in LC. rewrite <- LC at 1. rewrite value_count by (apply (co_cem _ _ CO)). cbn [bind].
  rewrite <- (co_cvalues _ _ CO). reflexivity.
Qed.

(** ** Blocks whose fields cannot be read *)
Lemma cem_read wb : 0 <= wb <= 1000 -> forall r, block_cem m buf (bfield W 11 2 + 1) wb = Ok r ->
  bfield W 11 2 + 1 = 1 \/ bfield W 23 2 = 0 \/
  wb <= (if bfield W 11 2 + 1 =? 2 then 126 else if bfield W 11 2 + 1 =? 3 then 122 else 120).
Proof.
  intros Hw r E. pose proof (bfield_range W 11 2 ltac:(lia)). change (2 ^ 2) with 4 in *. set (n := bfield W 11 2 + 1) in *.
  unfold block_cem in E. destruct (Z.eqb_spec n 1) as [|N1]; [auto|]. right.
  destruct (u16_word buf Hb Hl 2 ltac:(lia)) as (s & Es & U). rewrite Es in E. cbn [bind] in E. rewrite U in E. cbn [bind] in E. fold W in E.
  rewrite (idx_ok buf 3) in E by lia. cbn [bind] in E.
  assert (Z.land (Z.shiftr (bfield W (8 * 2) 16) 7) 3 = bfield W 23 2) as X.
  { change 3 with (2 ^ 2 - 1). rewrite land_field by lia. apply bfield_sub; lia. }
  rewrite X in E. destruct (Z.eqb_spec (bfield W 23 2) 0) as [|E0]; [auto|]. right.
  apply bind_ok_inv in E as (c0 & _ & E). apply bind_ok_inv in E as (c1 & E & _).
  assert (n = 2 \/ n = 3 \/ n = 4) as [En | [En | En]] by (unfold n in *; lia); rewrite En in *; cbn [Z.eqb Pos.eqb].
  - apply bind_ok_inv in E as (c2 & _ & E). cbv beta in E.
    apply bind_ok_inv in E as (o & Eo & E). apply bind_ok_inv in E as (v & Ev & _).
    enough (0 <= 126 - wb) by lia. apply (getbits_at m buf (126 - wb) 2 v); try lia. rewrite Eo. cbn [bind]. exact Ev.
  - apply bind_ok_inv in E as (c2 & _ & E). cbv beta in E.
    apply bind_ok_inv in E as (o & Eo & E). apply bind_ok_inv in E as (v & Ev & _).
    enough (0 <= 122 - wb) by lia. apply (getbits_at m buf (122 - wb) 2 v); try lia. rewrite Eo. cbn [bind]. exact Ev.
  - unfold for_range in E. change (zrange 0 4) with [0; 1; 2; 3] in E. cbn [for_list] in E.
    apply bind_ok_inv in E as (c2 & E & _). 
    apply bind_ok_inv in E as (o & Eo & E). apply bind_ok_inv in E as (v & Ev & _).
    enough (0 <= 120 + 0 * 2 - wb) by lia. apply (getbits_at m buf (120 + 0 * 2 - wb) 2 v); try lia. rewrite Eo. cbn [bind]. exact Ev.
Qed.

Lemma params_read d : decode_block_params m buf = Ok d -> params_ok.
Proof.
  intros E. pose proof code_facts as CO.
  pose proof (block_grid_ok buf Hb Hl) as G. cbv zeta in G. fold W in G. rewrite (co_mode _ _ CO) in G.
  set (g := l_grid l) in *. destruct G as (_ & G & _).
  pose proof (co_wcount120 _ _ CO) as WC. pose proof (co_wbits1000 _ _ CO) as WB. pose proof (co_parts4 _ _ CO) as P4.
  pose proof (co_extra _ _ CO) as XB. pose proof (co_parts _ _ CO) as EP.
  pose proof (co_cstart _ _ CO) as CS. pose proof (co_range _ _ CO) as GR. fold g in GR.
  unfold decode_block_params in E. rewrite G in E. cbn [bind] in E. rewrite (idx_ok buf 1) in E by lia. cbn [bind] in E.
  assert (Z.land (Z.shiftr (znth buf 1) 3) 3 + 1 = l_parts l) as X.
  { change 3 with (2 ^ 2 - 1) at 2. rewrite land_field by lia. rewrite <- (word_byte buf) by (auto; lia). rewrite EP. reflexivity. }
  rewrite X in E. clear X.
  assert ((if g_dual g then g_width g * g_height g * 2 else g_width g * g_height g) = l_wcount l) as X
    by (rewrite (co_wcount _ _ CO); fold g; destruct (g_dual g); lia).
  rewrite X in E. clear X.
  rewrite !idx_ok in E by (split; [lia|]; apply Z.lt_le_trans with 16; [lia|vm_compute; discriminate]). cbn [bind] in E.
  pose proof (co_taba _ _ CO) as TA. pose proof (co_tabb _ _ CO) as TB. fold g in TA, TB. rewrite TA, TB in E.
  rewrite weight_bits_ok in E by lia. rewrite <- (co_wbits _ _ CO) in E.
  apply bind_ok_inv in E as (r & Er & E).
  assert (mode_bits W = 0 \/ 0 <= (if l_parts l =? 3 then 122 else 128 - mode_bits W) - l_wbits l) as BC.
  { apply cem_pos; auto. rewrite EP in *. eapply cem_read; eauto. }
  assert (block_cem m buf (l_parts l) (l_wbits l) = Ok (if l_parts l =? 1 then 0 else bfield W 23 2, l_cems l ++ repeat 0 (4 - Z.to_nat (l_parts l)),
      (if l_parts l =? 1 then 17 else 29) + mode_bits W)) as X.
  { rewrite (co_cems _ _ CO). rewrite EP. unfold W. apply block_cem_ok; auto; [lia|]. fold W. rewrite <- EP. apply cem_pos; auto. }
  rewrite Er in X. assert (r = (if l_parts l =? 1 then 0 else bfield W 23 2, l_cems l ++ repeat 0 (4 - Z.to_nat (l_parts l)),
      (if l_parts l =? 1 then 17 else 29) + mode_bits W)) as -> by congruence. clear X Er.
  set (wb := l_wbits l) in *. set (parts := l_parts l) in *.
  assert (mode_bits W = if negb ((if parts =? 1 then 0 else bfield W 23 2) =? 0) then 3 * parts - 4 else 0) as XE.
  { unfold mode_bits. rewrite <- EP. fold parts. destruct (parts =? 1); cbn [orb]; auto. destruct (bfield W 23 2 =? 0); auto. }
  set (c := negb ((if parts =? 1 then 0 else bfield W 23 2) =? 0)) in *.
  cbv beta iota in E. apply bind_ok_inv in E as ([cfg plane] & Ec & E).
  apply bind_ok_inv in E as (rr & Err & E). apply bind_ok_inv in E as (rem & Erm & _).
  assert (17 <= (if parts =? 1 then 17 else 29) <= 29) by (destruct (parts =? 1); lia).
  assert (cfg = (if parts =? 1 then 17 else 29) + mode_bits W + (if g_dual g then 2 else 0) /\
    (g_dual g = true -> 0 <= 128 - wb - mode_bits W - 2)) as [-> BD].
  { destruct (g_dual g); [|assert (cfg = (if parts =? 1 then 17 else 29) + mode_bits W) by congruence; split; [lia|discriminate]].
    apply bind_ok_inv in Ec as (o & Eo & Ec). apply bind_ok_inv in Ec as (v & Ev & Ec).
    split; [congruence|]. intros _.
    apply (getbits_at m buf (128 - wb - mode_bits W - 2) 2 v); try lia.
    replace (ua m 64 (128 - wb - mode_bits W - 2)) with (Ok o); [exact Ev|]. rewrite <- Eo. destruct c.
    - unfold ua at 1. destruct ((0 <=? 130 - wb) && (130 - wb <? 2 ^ 64)) eqn:Q.
      + cbn [bind]. f_equal. lia.
      + destruct m; [exfalso; unfold ua at 1 in Eo; rewrite Q in Eo; discriminate|].
        cbn [bind]. rewrite !ua_wrap by lia. f_equal.
        rewrite Zminus_mod_idemp_l. f_equal. lia.
    - f_equal. lia. }
  rewrite ua_ok in Err by (destruct (g_dual g); lia). assert (rr = 128 - ((if parts =? 1 then 17 else 29) + mode_bits W + (if g_dual g then 2 else 0))) as -> by congruence.
  replace (128 - ((if parts =? 1 then 17 else 29) + mode_bits W + (if g_dual g then 2 else 0)) - wb) with (layout_room W l) in Erm
    by (unfold layout_room; rewrite CS; fold g wb parts; lia).
  unfold params_ok. destruct (Z.le_gt_cases 0 (layout_room W l)) as [|Hr]; [auto|]. right.
  unfold ua in Erm. destruct (Z.leb_spec 0 (layout_room W l)); [lia|]. cbn [andb] in Erm.
  destruct m; [discriminate|]. split; [reflexivity|]. split; auto.
Qed.
End Code.
