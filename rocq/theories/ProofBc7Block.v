(** * The whole BC7 block *)
From Verif Require Import Base BaseLemmas BitLemmas FieldLemmas ModelColor SpecImage ProofDecoder ModelBits SpecBits
  ProofBits ModelBptc SpecBptc SpecBc ProofBc ModelBc7 SpecBc7 ProofBc7 ProofBcImage ProofBlock.

(** The table of the code is the table of the format. *)
Lemma mode_info mode : 0 <= mode < 8 ->
  idx S_BP7_MODE_INFO mode = Ok (mkBc7 (NS mode) (PB mode) (RB mode) (ISB mode) (CB mode) (AB mode)
    (EPB mode) (SPB mode) (IB mode) (IB2 mode)).
Proof. intros H. enum mode H; reflexivity. Qed.

Definition PBITS (mode : Z) : Z := if negb (EPB mode =? 0) then EPB mode else SPB mode.

Lemma mode_facts mode : 0 <= mode < 8 ->
  1 <= NS mode <= 3 /\ 0 <= PB mode <= 6 /\ 0 <= RB mode <= 2 /\ 0 <= ISB mode <= 1 /\
  0 <= PBITS mode <= 1 /\ 4 <= CB mode + PBITS mode <= 8 /\ 4 <= CB mode /\
  (AB mode = 0 \/ 4 <= AB mode /\ 4 <= AB mode + PBITS mode <= 8) /\
  2 <= IB mode <= 4 /\ (IB2 mode = 0 \/ 2 <= IB2 mode <= 3) /\
  o_index mode <= 128 /\ (ISB mode = 0 \/ IB2 mode <> 0) /\
  (EPB mode = 1 /\ SPB mode = 0 \/ EPB mode = 0 /\ (SPB mode = 0 \/ SPB mode = 1)).
Proof. intros H. enum mode H; vm_compute; intuition congruence. Qed.

Section Block.
Context (m : build) (data b : list Z).
Hypothesis Hread : forall pos n, 0 <= pos -> 0 <= n <= 15 -> pos + n <= 128 ->
  read m data pos n = Ok (bits b pos n, pos + n).
Hypothesis Hpeek : forall pos off n, 0 <= pos -> 0 <= off -> 0 <= n <= 15 -> pos + off + n <= 128 ->
  peek m data pos off n = Ok (bits b (pos + off) n).

Lemma texel_step E0 E1 E2 E3 f0 f1 :
  let mode := bc7_mode b in
  0 <= mode < 8 ->
  (forall e, 0 <= e < 2 * NS mode ->
     is_byte (E0 e) /\ is_byte (E1 e) /\ is_byte (E2 e) /\ is_byte (E3 e) /\
     E0 e = channel_endpoint b mode 0 e /\ E1 e = channel_endpoint b mode 1 e /\
     E2 e = channel_endpoint b mode 2 e /\ E3 e = channel_endpoint b mode 3 e) ->
  idx S_BPTC_FACTORS (IB mode - 2) = Ok f0 ->
  (if IB2 mode =? 0 then f1 = f0 else idx S_BPTC_FACTORS (IB2 mode - 2) = Ok f1) ->
  forall mi, idx S_BP7_MODE_INFO mode = Ok mi ->
  forall t l, 0 <= t < 16 ->
  bc7_texel_body m data mi (o_index mode) (bc7_part b) (bc7_rot b) (bc7_isel b)
    (tab 6 E0) (tab 6 E1) (tab 6 E2) (tab 6 E3) f0 f1 (t / 4) (t mod 4)
    (l, (off0 mode (bc7_part b) t, off1 mode (bc7_part b) t)) =
  let* l' := upd l t (bc7_texel b t) in
  Ok (l', (off0 mode (bc7_part b) (t + 1), off1 mode (bc7_part b) (t + 1))).
Proof.
  intros mode Hm HE Hf0 Hf1 mi Hmi t l Ht.
  rewrite mode_info in Hmi by auto. injection Hmi as <-.
  destruct (mode_facts mode Hm) as (Fns & Fpb & Frb & Fisb & _ & _ & _ & _ & Fib & Fib2 & Foi & Fsel & _).
  assert (0 <= bc7_part b < 2 ^ PB mode) as Hp by (apply bits_range; lia).
  destruct (check_facts m mode (bc7_part b) t Hm Hp Ht) as (C1 & C2 & C3 & C4 & C5 & C6 & C6' & C7 & C8).
  assert (0 <= o_index mode) as Ho by (clear - Hm; clearbody mode; enum mode Hm; vm_compute; discriminate).
  unfold bc7_texel_body. cbn [num_subsets index_bits0 index_bits1].
  replace (t / 4 * 4) with (t - t mod 4) by (pose proof (Z.div_mod t 4); lia).
  rewrite ua_ok by (pose proof (Z.mod_le t 4); pose proof (Z.mod_pos_bound t 4); lia). cbn [bind].
  rewrite ua_ok by lia. cbn [bind]. replace (t - t mod 4 + t mod 4) with t by lia.
  rewrite C1. cbn [bind]. fold (is_anchor mode (bc7_part b) t).
  assert (forall n, n - (if t =? anchor mode (bc7_part b) (subset mode (bc7_part b) t) then 1 else 0) =
            nbits mode (bc7_part b) t n) as Hnb by reflexivity.
  rewrite !Hnb.
  assert (IB mode - 1 <= nbits mode (bc7_part b) t (IB mode) <= IB mode) as Bn by (unfold nbits; destruct (is_anchor _ _ _); lia).
  rewrite ua_ok by lia. cbn [bind].
  set (part := bc7_part b) in *. set (n0 := nbits mode part t (IB mode)) in *.
  assert (2 ^ n0 <= 2 ^ IB mode) as Pn0 by (apply Z.pow_le_mono_r; lia).
  (* primary index *)
  assert (forall X (k : Z -> res X), (let* x := peek m data (o_index mode) (off0 mode part t) n0 in k x) =
     k (texel_index b mode part (o_index mode) (IB mode) t)) as Hk0.
  { intros X k. rewrite Hpeek by lia. cbn [bind]. f_equal. unfold texel_index. fold n0.
    unfold off0. f_equal. lia. }
  assert (0 <= texel_index b mode part (o_index mode) (IB mode) t < 2 ^ IB mode) as Bi0.
  { unfold texel_index. fold (nbits mode part t (IB mode)). fold n0.
    pose proof (bits_range b (o_index mode + IB mode * t - anchors_below mode part t) n0 ltac:(lia)). lia. }
  destruct (weight_ok (IB mode) _ f0 ltac:(lia) Bi0 Hf0) as (W0 & BW0).
  (* secondary index *)
  assert (exists num1 i1,
     (if negb (IB2 mode =? 0) then ua m 64 (nbits mode part t (IB2 mode)) else Ok 0) = Ok num1 /\
     0 <= num1 /\ off1 mode part t + num1 = off1 mode part (t + 1) /\
     (forall i0, (if negb (IB2 mode =? 0) then peek m data (o_index mode) (off1 mode part t) num1 else Ok i0) =
        Ok (if IB2 mode =? 0 then i0 else i1)) /\
     idx f1 (if IB2 mode =? 0 then texel_index b mode part (o_index mode) (IB mode) t else i1) = Ok (weight2 b t) /\
     0 <= weight2 b t <= 64) as (num1 & i1 & Hn1 & Hn1' & Ho1 & Hk1 & W1 & BW1).
  { unfold weight2. fold mode. fold part. unfold weight1. fold mode. fold part.
    destruct (Z.eqb_spec (IB2 mode) 0) as [Z2|Z2]; cbn [negb].
    - exists 0, 0. split; [auto|]. split; [lia|]. split; [lia|]. split; [auto|]. rewrite Hf1. auto.
    - destruct Fib2 as [|Fib2]; [lia|]. destruct C8 as [|[C8 C9]]; [lia|].
      assert (IB2 mode - 1 <= nbits mode part t (IB2 mode) <= IB2 mode) as Bn1
        by (unfold nbits; destruct (is_anchor _ _ _); lia).
      set (n1 := nbits mode part t (IB2 mode)) in *.
      exists n1, (texel_index b mode part (o_index2 mode) (IB2 mode) t).
      rewrite ua_ok by lia. split; [auto|]. split; [lia|]. split; [lia|].
      split.
      { intros _. rewrite Hpeek by lia. f_equal. unfold texel_index. fold (nbits mode part t (IB2 mode)). fold n1.
        rewrite C8. auto. }
      apply (weight_ok (IB2 mode)); auto; try lia.
      unfold texel_index. fold (nbits mode part t (IB2 mode)). fold n1.
      pose proof (bits_range b (o_index2 mode + IB2 mode * t - anchors_below mode part t) n1 ltac:(lia)).
      assert (2 ^ n1 <= 2 ^ IB2 mode) by (apply Z.pow_le_mono_r; lia). lia. }
  rewrite Hn1. cbn [bind].
  set (i0 := texel_index b mode part (o_index mode) (IB mode) t) in *.
  rewrite Hk0. rewrite Hk1. cbn [bind].
  set (k1 := if IB2 mode =? 0 then i0 else i1) in *.
  rewrite ua_ok by lia. cbn [bind]. rewrite <- C3.
  rewrite ua_ok by lia. cbn [bind]. rewrite Ho1.
  assert (weight1 b t = znth (weights (IB mode)) i0) as Ew1 by reflexivity.
  rewrite <- Ew1 in W0, BW0.
  pose proof (bits_range b (o_isel mode) (ISB mode) ltac:(lia)) as Bs.
  assert (2 ^ ISB mode <= 2 ^ 1) by (apply Z.pow_le_mono_r; lia).
  change (bits b (o_isel mode) (ISB mode)) with (bc7_isel b) in Bs.
  assert (exists fc fa, fc = color_weight b t /\ fa = alpha_weight b t /\ 0 <= fc <= 64 /\ 0 <= fa <= 64 /\
     forall X (k : Z -> Z -> res X),
       (let* fs := idx [f0; f1] (bc7_isel b) in
        let* k0 := idx [i0; k1] (bc7_isel b) in
        let* fc := idx fs k0 in
        let* nsel := ua m 64 (1 - bc7_isel b) in
        let* fs := idx [f0; f1] nsel in
        let* k0 := idx [i0; k1] nsel in
        let* fa := idx fs k0 in k fc fa) = k fc fa) as (fc & fa & Efc & Efa & Bfc & Bfa & Hsel).
  { unfold color_weight, alpha_weight.
    assert (bc7_isel b = 0 \/ bc7_isel b = 1) as [-> | ->] by (change (2 ^ 1) with 2 in *; lia).
    - exists (weight1 b t), (weight2 b t). do 4 (split; [auto|]). intros X k.
      change (idx [f0; f1] 0) with (Ok f0). change (idx [i0; k1] 0) with (Ok i0). cbn [bind].
      rewrite W0. cbn [bind]. rewrite ua_ok by lia. cbn [bind].
      change (idx [f0; f1] (1 - 0)) with (Ok f1). change (idx [i0; k1] (1 - 0)) with (Ok k1). cbn [bind].
      rewrite W1. reflexivity.
    - exists (weight2 b t), (weight1 b t). do 4 (split; [auto|]). intros X k.
      change (idx [f0; f1] 1) with (Ok f1). change (idx [i0; k1] 1) with (Ok k1). cbn [bind].
      rewrite W1. cbn [bind]. rewrite ua_ok by lia. cbn [bind].
      change (idx [f0; f1] (1 - 1)) with (Ok f0). change (idx [i0; k1] (1 - 1)) with (Ok i0). cbn [bind].
      rewrite W0. reflexivity. }
  rewrite Hsel.
  rewrite ua_ok by lia. cbn [bind]. rewrite ua_ok by lia. cbn [bind].
  assert (0 <= subset mode part t < 3) as Bsub by lia.
  rewrite ua_ok by lia. cbn [bind].
  destruct (HE (2 * subset mode part t) ltac:(lia)) as (B0 & B1 & B2 & B3 & Q0 & Q1 & Q2 & Q3).
  destruct (HE (2 * subset mode part t + 1) ltac:(lia)) as (B0' & B1' & B2' & B3' & Q0' & Q1' & Q2' & Q3').
  rewrite !mix_ok by auto. cbn [bind].
  rewrite Q0, Q1, Q2, Q3, Q0', Q1', Q2', Q3', Efc, Efa.
  pose proof (bits_range b (o_rot mode) (RB mode) ltac:(lia)) as Br.
  assert (2 ^ RB mode <= 2 ^ 2) by (apply Z.pow_le_mono_r; lia).
  change (bits b (o_rot mode) (RB mode)) with (bc7_rot b) in Br.
  assert (forall c, c <> 3 -> lerp64 (channel_endpoint b mode c (2 * subset mode part t))
     (channel_endpoint b mode c (2 * subset mode part t + 1)) (color_weight b t) = bc7_channel b c t) as Hc.
  { intros c Hc. unfold bc7_channel. fold mode. fold part. destruct (Z.eqb_spec c 3); [lia|]. auto. }
  rewrite !Hc by lia.
  change (lerp64 (channel_endpoint b mode 3 (2 * subset mode part t))
     (channel_endpoint b mode 3 (2 * subset mode part t + 1)) (alpha_weight b t)) with (bc7_channel b 3 t).
  unfold bc7_texel. fold mode. destruct (Z.eqb_spec mode 8); [lia|].
  assert (bc7_rot b = 0 \/ bc7_rot b = 1 \/ bc7_rot b = 2 \/ bc7_rot b = 3) as HR by (change (2 ^ 2) with 4 in *; lia).
  cbv zeta.
  destruct HR as [-> |[-> |[-> | ->]]];
    cbn [Z.eqb Pos.eqb Z.sub Z.add Z.opp Z.pos_sub Pos.pred_double Z.succ_double Z.pred_double Z.double];
    rewrite color_rgba; reflexivity.
Qed.

(** One stored channel: values with p-bits appended and expanded. *)
Lemma endpoint_byte mode o n e : 0 <= mode < 8 -> 4 <= n -> 4 <= n + PBITS mode <= 8 ->
  is_byte (endpoint b mode o n e) /\
  (0 < PBITS mode -> forall sh, sh = SPB mode ->
     endpoint b mode o n e =
     expand8 (n + PBITS mode) (orp b (NS mode) sh (o_pbit mode)
       (fun e => if e <? 2 * NS mode then bits b (o + e * n) n * 2 ^ PBITS mode else 0) e) \/ 2 * NS mode <= e) /\
  (PBITS mode = 0 -> endpoint b mode o n e = expand8 n (bits b (o + e * n) n)).
Proof.
  intros Hm Hn Hnp.
  destruct (mode_facts mode Hm) as (_ & _ & _ & _ & _ & _ & _ & _ & _ & _ & _ & _ & F).
  unfold endpoint, PBITS in *.
  pose proof (bits_range b (o + e * n) n ltac:(lia)) as Bv.
  assert (forall p, 0 <= 2 * bits b (o + e * n) n + bits b p 1 < 2 ^ (n + 1)) as Bp.
  { intros p. rewrite Z.pow_add_r by lia. pose proof (bits_range b p 1 ltac:(lia)). change (2 ^ 1) with 2 in *. lia. }
  assert (forall p, Z.lor (bits b (o + e * n) n * 2 ^ 1) (bits b p 1) = 2 * bits b (o + e * n) n + bits b p 1) as Hor.
  { intros p. rewrite lor_add by (try lia; apply bits_range; lia). change (2 ^ 1) with 2. lia. }
  destruct F as [[E S]|[E [S|S]]]; rewrite E, S in *;
    cbn [Z.eqb negb Pos.eqb] in Hnp |- *.
  - split; [apply (expand_ok m); auto; lia|]. split; [|lia]. intros _ sh ->.
    destruct (Z.ltb_spec e (2 * NS mode)) as [L|L]; [left|right; lia].
    unfold orp. destruct (Z.ltb_spec e (2 * NS mode)); [|lia]. rewrite Hor. reflexivity.
  - split; [apply (expand_ok m); auto; lia|]. split; [lia|]. auto.
  - split; [apply (expand_ok m); auto; lia|]. split; [|lia]. intros _ sh ->.
    destruct (Z.ltb_spec e (2 * NS mode)) as [L|L]; [left|right; lia].
    unfold orp. destruct (Z.ltb_spec e (2 * NS mode)); [|lia]. rewrite Hor. reflexivity.
Qed.

Definition raw_ch (mode o n e : Z) : Z := if e <? 2 * NS mode then bits b (o + e * n) n * 2 ^ PBITS mode else 0.
Definition p_ch (mode : Z) (f : Z -> Z) : Z -> Z :=
  if PBITS mode =? 0 then f else orp b (NS mode) (SPB mode) (o_pbit mode) f.
Definition exp_ch (mode n : Z) (f : Z -> Z) (e : Z) : Z :=
  if e <? 2 * NS mode then expand8 (n + PBITS mode) (f e) else f e.

Lemma stored_channel mode o n e : 0 <= mode < 8 -> 4 <= n -> 4 <= n + PBITS mode <= 8 -> 0 <= e < 2 * NS mode ->
  0 <= p_ch mode (raw_ch mode o n) e < 2 ^ (n + PBITS mode) /\
  exp_ch mode n (p_ch mode (raw_ch mode o n)) e = endpoint b mode o n e /\ is_byte (endpoint b mode o n e).
Proof.
  intros Hm Hn Hnp He.
  destruct (endpoint_byte mode o n e Hm Hn Hnp) as (HB & HP & HZ).
  destruct (mode_facts mode Hm) as (_ & _ & _ & _ & Fp & _).
  unfold exp_ch, p_ch. destruct (Z.ltb_spec e (2 * NS mode)); [|lia].
  pose proof (bits_range b (o + e * n) n ltac:(lia)) as Bv.
  destruct (Z.eqb_spec (PBITS mode) 0) as [P|P].
  - rewrite HZ by auto. unfold raw_ch. destruct (Z.ltb_spec e (2 * NS mode)); [|lia].
    rewrite P, Z.add_0_r. change (2 ^ 0) with 1. rewrite Z.mul_1_r. rewrite HZ in HB by auto. auto.
  - assert (PBITS mode = 1) as P1 by lia.
    destruct (HP ltac:(lia) (SPB mode) eq_refl) as [HE|]; [|lia].
    split; [|split; [symmetry; exact HE|auto]].
    unfold orp. destruct (Z.ltb_spec e (2 * NS mode)); [|lia]. unfold raw_ch.
    destruct (Z.ltb_spec e (2 * NS mode)); [|lia]. rewrite P1.
    rewrite lor_add by (try lia; apply bits_range; lia).
    match goal with |- context [bits b ?p 1] => pose proof (bits_range b p 1 ltac:(lia)) end.
    rewrite Z.pow_add_r by lia. change (2 ^ 1) with 2 in *. lia.
Qed.

Lemma bc7_block_gen outbuf : 16 <= zlen outbuf ->
  decode_bc7_block m data outbuf = Ok (tab 16 (bc7_texel b) ++ skipn 16 outbuf).
Proof.
  intros Hlen. unfold decode_bc7_block.
  destruct (mode_loop_ok m data b Hread) as (-> & Bm). cbn [bind].
  destruct (Z.eqb_spec (bc7_mode b) 8) as [M8|M8].
  { rewrite copy_into_ok by (cbn; lia). change (firstn (Z.to_nat 0) outbuf) with (@nil Z).
    cbn [app]. replace (Z.to_nat 0 + length (repeat 0 16))%nat with 16%nat by reflexivity.
    rewrite (tab_ext 16 _ (fun _ => 0)); [reflexivity|].
    intros i _. unfold bc7_texel. rewrite M8. reflexivity. }
  set (mode := bc7_mode b) in *. assert (0 <= mode < 8) as Hm by lia.
  rewrite mode_info by auto. cbn [bind].
  cbn [num_subsets partition_bits rotation_bits index_selection_bits color_bits alpha_bits endpoint_pbits shared_pbits index_bits0 index_bits1].
  fold (PBITS mode).
  destruct (mode_facts mode Hm) as (Fns & Fpb & Frb & Fisb & Fpp & Fcp & Fc & Fa & Fib & Fib2 & Foi & Fsel & Fps).
  assert (0 <= EPB mode /\ 0 <= SPB mode) as (Fe & Fs) by lia.
  assert (0 <= AB mode) as Fa0 by lia.
  assert (0 <= NS mode * CB mode) by (apply Z.mul_nonneg_nonneg; lia).
  assert (0 <= NS mode * AB mode) by (apply Z.mul_nonneg_nonneg; lia).
  assert (0 <= NS mode * EPB mode) by (apply Z.mul_nonneg_nonneg; lia).
  assert (0 <= NS mode * SPB mode) by (apply Z.mul_nonneg_nonneg; lia).
  unfold o_index, o_pbit, o_alpha, o_color, o_isel, o_rot, o_part in Foi.
  rewrite Hread by lia. cbn [bind]. rewrite Hread by lia. cbn [bind].
  rewrite Hread by lia. cbn [bind].
  change (bits b (mode + 1) (PB mode)) with (bc7_part b).
  change (bits b (mode + 1 + PB mode) (RB mode)) with (bc7_rot b).
  change (bits b (mode + 1 + PB mode + RB mode) (ISB mode)) with (bc7_isel b).
  change (mode + 1 + PB mode + RB mode + ISB mode) with (o_color mode).
  assert (o_color mode = mode + 1 + PB mode + RB mode + ISB mode) as Eoc by reflexivity.
  rewrite (channel_ok m data b Hread) by lia. cbn [bind].
  rewrite (channel_ok m data b Hread) by lia. cbn [bind].
  rewrite (channel_ok m data b Hread) by lia. cbn [bind].
  replace (o_color mode + 2 * NS mode * CB mode + 2 * NS mode * CB mode + 2 * NS mode * CB mode)
    with (o_alpha mode) by (unfold o_alpha; lia).
  assert (o_alpha mode = o_color mode + 3 * (2 * NS mode) * CB mode) as Eoa by reflexivity.
  fold (raw_ch mode (o_color mode) (CB mode)).
  fold (raw_ch mode (o_color mode + 2 * NS mode * CB mode) (CB mode)).
  fold (raw_ch mode (o_color mode + 2 * NS mode * CB mode + 2 * NS mode * CB mode) (CB mode)).
  set (R0 := raw_ch mode (o_color mode) (CB mode)).
  set (R1 := raw_ch mode (o_color mode + 2 * NS mode * CB mode) (CB mode)).
  set (R2 := raw_ch mode (o_color mode + 2 * NS mode * CB mode + 2 * NS mode * CB mode) (CB mode)).
  set (R3 := if AB mode =? 0 then fun _ => 255 else raw_ch mode (o_alpha mode) (AB mode)).
  assert ((if 0 <? AB mode then bc7_read_channel m data (NS mode) (AB mode) (PBITS mode) (repeat 0 6) (o_alpha mode)
     else Ok (repeat 255 6, o_alpha mode)) = Ok (tab 6 R3, o_pbit mode)) as ->.
  { unfold R3. destruct (Z.ltb_spec 0 (AB mode)).
    - rewrite (channel_ok m data b Hread) by lia. destruct (Z.eqb_spec (AB mode) 0); [lia|]. reflexivity.
    - assert (AB mode = 0) as A0 by lia. rewrite A0. change (0 =? 0) with true. cbv iota.
      unfold o_pbit. rewrite A0, Z.mul_0_r, Z.add_0_r. reflexivity. }
  cbn [bind].
  assert ((if negb (PBITS mode =? 0)
      then bc7_pbits m data (NS mode) (PBITS mode) (SPB mode) (tab 6 R0, tab 6 R1, tab 6 R2, tab 6 R3, o_pbit mode)
      else Ok (tab 6 R0, tab 6 R1, tab 6 R2, tab 6 R3, o_pbit mode)) =
    Ok (tab 6 (p_ch mode R0), tab 6 (p_ch mode R1), tab 6 (p_ch mode R2), tab 6 (p_ch mode R3), o_index mode)) as ->.
  { unfold p_ch. destruct (Z.eqb_spec (PBITS mode) 0) as [P|P]; cbn [negb].
    - assert (EPB mode = 0 /\ SPB mode = 0) as (E & S).
      { unfold PBITS in P. destruct (Z.eqb_spec (EPB mode) 0); cbn [negb] in P; lia. }
      assert (o_index mode = o_pbit mode) as -> by (unfold o_index; rewrite E, S; lia). reflexivity.
    - assert (PBITS mode = 1) as P1 by lia. rewrite P1.
      assert (EPB mode = 1 /\ SPB mode = 0 \/ EPB mode = 0 /\ SPB mode = 1) as ES.
      { unfold PBITS in P. destruct (Z.eqb_spec (EPB mode) 0); cbn [negb] in P; lia. }
      assert (o_pbit mode + 2 * NS mode <= 128) by (clear - Hm; clearbody mode; enum mode Hm; vm_compute; discriminate).
      assert (o_pbit mode = o_alpha mode + 2 * NS mode * AB mode) as Eop by reflexivity.
      rewrite (pbits_ok m data b Hread) by lia.
      assert (o_pbit mode + (if SPB mode =? 0 then 2 * NS mode else NS mode) = o_index mode) as ->.
      { unfold o_index. destruct ES as [[-> ->]|[-> ->]]; cbn [Z.eqb]; lia. }
      reflexivity. }
  cbn [bind]. rewrite ua_ok by lia. cbn [bind].
  assert (forall o e, 0 <= e < 2 * NS mode -> 0 <= p_ch mode (raw_ch mode o (CB mode)) e < 2 ^ (CB mode + PBITS mode)) as HR.
  { intros o e He. apply stored_channel; auto; lia. }
  rewrite (expand_loop_ok m) by (try lia; intros; apply HR; lia). cbn [bind].
  rewrite (expand_loop_ok m) by (try lia; intros; apply HR; lia). cbn [bind].
  rewrite (expand_loop_ok m) by (try lia; intros; apply HR; lia). cbn [bind].
  fold (exp_ch mode (CB mode) (p_ch mode R0)). fold (exp_ch mode (CB mode) (p_ch mode R1)).
  fold (exp_ch mode (CB mode) (p_ch mode R2)).
  set (E3 := if AB mode =? 0 then p_ch mode R3 else exp_ch mode (AB mode) (p_ch mode R3)).
  assert ((if 0 <? AB mode then
      let* abits := ua m 64 (AB mode + PBITS mode) in bc7_expand m (NS mode) abits (tab 6 (p_ch mode R3))
      else Ok (tab 6 (p_ch mode R3))) = Ok (tab 6 E3)) as ->.
  { unfold E3. destruct (Z.ltb_spec 0 (AB mode)).
    - destruct Fa as [|Fa]; [lia|]. rewrite ua_ok by lia. cbn [bind].
      destruct (Z.eqb_spec (AB mode) 0); [lia|].
      rewrite (expand_loop_ok m); [reflexivity|lia|lia|].
      intros e He. unfold R3. destruct (Z.eqb_spec (AB mode) 0); [lia|]. apply stored_channel; auto; lia.
    - destruct (Z.eqb_spec (AB mode) 0); [|lia]. reflexivity. }
  cbn [bind]. rewrite ua_ok by lia. cbn [bind].
  destruct (idx S_BPTC_FACTORS (IB mode - 2)) as [f0| |] eqn:Ef0;
    [|exfalso; clear - Hm Ef0; clearbody mode; enum mode Hm; discriminate
     |exfalso; clear - Hm Ef0; clearbody mode; enum mode Hm; discriminate].
  cbn [bind].
  assert (exists f1, (if negb (IB2 mode =? 0) then let* k1 := ua m 64 (IB2 mode - 2) in idx S_BPTC_FACTORS k1 else Ok f0) = Ok f1 /\
    (if IB2 mode =? 0 then f1 = f0 else idx S_BPTC_FACTORS (IB2 mode - 2) = Ok f1)) as (f1 & -> & Hf1).
  { destruct (Z.eqb_spec (IB2 mode) 0); cbn [negb]; [eauto|]. rewrite ua_ok by lia. cbn [bind].
    assert (IB2 mode = 2 \/ IB2 mode = 3) as [-> | ->] by lia; eexists; split; reflexivity. }
  cbn [bind]. rewrite ua_ok by lia. cbn [bind]. rewrite ua_ok by lia. cbn [bind].
  assert (0 <= NS mode * (16 * IB mode - 1) <= 3 * 63)
    by (split; [apply Z.mul_nonneg_nonneg|apply Z.mul_le_mono_nonneg]; lia).
  rewrite ua_ok by lia. cbn [bind].
  rewrite nested16.
  replace (0, NS mode * (16 * IB mode - 1)) with
    ((fun t => (off0 mode (bc7_part b) t, off1 mode (bc7_part b) t)) 0).
  2:{ unfold off0, off1, anchors_below. change (zrange 0 0) with (@nil Z). cbn [filter].
      change (zlen (@nil Z)) with 0. destruct (IB2 mode =? 0); f_equal; lia. }
  rewrite (store_loop (bc7_texel b) (fun t => (off0 mode (bc7_part b) t, off1 mode (bc7_part b) t)) outbuf 16); [reflexivity|lia|].
  intros t l Ht Hl. cbv beta.
  pose proof (texel_step (exp_ch mode (CB mode) (p_ch mode R0)) (exp_ch mode (CB mode) (p_ch mode R1))
    (exp_ch mode (CB mode) (p_ch mode R2)) E3 f0 f1) as T. cbv zeta in T. fold mode in T.
  assert (u8 (bc7_rot b) = bc7_rot b) as Eu.
  { pose proof (bits_range b (mode + 1 + PB mode) (RB mode) ltac:(lia)) as Br.
    change (0 <= bc7_rot b < 2 ^ RB mode) in Br. unfold u8.
    assert (2 ^ RB mode <= 2 ^ 2) by (apply Z.pow_le_mono_r; lia). change (2 ^ 2) with 4 in *.
    apply Z.mod_small. lia. }
  rewrite Eu. refine (T Hm _ Ef0 Hf1 _ (mode_info mode Hm) t l Ht). clear T.
  - intros e He. unfold channel_endpoint.
    change (0 =? 3) with false. change (1 =? 3) with false. change (2 =? 3) with false. change (3 =? 3) with true. cbv iota.
    destruct (stored_channel mode (o_color mode) (CB mode) e) as (_ & S0 & T0); try lia.
    destruct (stored_channel mode (o_color mode + 2 * NS mode * CB mode) (CB mode) e) as (_ & S1 & T1); try lia.
    destruct (stored_channel mode (o_color mode + 2 * NS mode * CB mode + 2 * NS mode * CB mode) (CB mode) e) as (_ & S2 & T2); try lia.
    fold R0 in S0. fold R1 in S1. fold R2 in S2. rewrite S0, S1, S2.
    replace (o_color mode + 0 * (2 * NS mode * CB mode)) with (o_color mode) by lia.
    replace (o_color mode + 1 * (2 * NS mode * CB mode)) with (o_color mode + 2 * NS mode * CB mode) by lia.
    replace (o_color mode + 2 * (2 * NS mode * CB mode)) with (o_color mode + 2 * NS mode * CB mode + 2 * NS mode * CB mode) by lia.
    do 3 (split; [auto|]).
    assert (is_byte (E3 e) /\ E3 e = if AB mode =? 0 then 255 else endpoint b mode (o_alpha mode) (AB mode) e) as (T3 & S3).
    { unfold E3, R3. destruct (Z.eqb_spec (AB mode) 0).
      - assert (p_ch mode (fun _ => 255) e = 255) as ->.
        { unfold p_ch. destruct (PBITS mode =? 0); auto. unfold orp. destruct (e <? 2 * NS mode); auto.
          match goal with |- context [bits b ?p 1] => destruct (bit01 b p) as [-> | ->]; reflexivity end. }
        split; [unfold is_byte; lia|auto].
      - destruct Fa as [|Fa]; [lia|].
        destruct (stored_channel mode (o_alpha mode) (AB mode) e) as (_ & S3 & T3); try lia. rewrite S3. auto. }
    split; [auto|]. auto.
Qed.
End Block.
