(** * ASTC weights: unquantization, infill, range *)
From Verif Require Import Base BaseLemmas BitLemmas FieldLemmas ModelBits ProofDecoder ProofBits ProofPvrInfo ModelAstc SpecAstc ProofAstcSeq ProofAstcParams ProofAstcEnd.

Definition weight_quants : list (radix * Z) :=
  [(Bits, 1); (Trits, 0); (Bits, 2); (Quints, 0); (Trits, 1); (Bits, 3);
   (Quints, 1); (Trits, 2); (Bits, 4); (Quints, 2); (Trits, 3); (Bits, 5)].
Lemma weight_quant_in r k n : weight_quant r = Some (k, n) -> 2 <= r <= 15 /\ In (k, n) weight_quants /\
  znth WEIGHT_PREC_TABLE_A r = radix_code k /\ znth WEIGHT_PREC_TABLE_B r = n /\ 0 <= n <= 5.
Proof.
  intros H. assert (2 <= r <= 15) as R.
  { unfold weight_quant in H. destruct r as [|p|]; try discriminate.
    do 5 (destruct p; try discriminate; try lia). }
  split; auto. assert (0 <= r < 16) as R' by lia. clear R. revert H. enum r R'; intros H; try discriminate; injection H as <- <-; cbn; intuition lia.
Qed.

Definition wt_check (m : build) (q : radix * Z) : bool :=
  let '(k, n) := q in
  all_below (2 ^ n) (fun v => all_below (radix_digits k) (fun d =>
    match unquant_weight m (radix_code k) n (v, d) with
    | Ok w => (w =? weight_value k n (v, d)) && (0 <=? w) && (w <=? 64)
    | _ => false
    end)).
Lemma wt_sweep m : forallb (wt_check m) weight_quants = true.
Proof. destruct m; vm_cast_no_check (eq_refl true). Qed.

Lemma unquant_weight_ok m k n e : In (k, n) weight_quants -> 0 <= fst e < 2 ^ n -> 0 <= snd e < radix_digits k ->
  unquant_weight m (radix_code k) n e = Ok (weight_value k n e) /\ 0 <= weight_value k n e <= 64.
Proof.
  intros I H1 H2. destruct e as [v d]. cbn [fst snd] in *.
  pose proof (wt_sweep m) as S. rewrite forallb_forall in S. apply S in I. unfold wt_check in I.
  pose proof (all_below_spec _ _ I v H1) as I1. cbv beta in I1.
  pose proof (all_below_spec _ _ I1 d H2) as I2. cbv beta in I2.
  destruct (unquant_weight m (radix_code k) n (v, d)) as [r| |]; try discriminate.
  rewrite !andb_true_iff in I2. destruct I2 as [[A B] C]. apply Z.eqb_eq in A. apply Z.leb_le in B. apply Z.leb_le in C.
  subst r. split; auto.
Qed.

Lemma weights_range W l i : layout_ok W l -> 0 <= weights_of W l i <= 64.
Proof.
  intros LO. unfold weights_of. destruct (i <? l_wcount l); [|lia].
  destruct (l_wq l) as [k n] eqn:EQ. pose proof (lo_quant _ _ LO) as Q. rewrite EQ in Q.
  destruct (weight_quant_in _ _ _ Q) as (_ & I & _ & _ & N).
  destruct (entry_range k n (bfield (rev_bits 128 W) 0 (l_wbits l)) i ltac:(lia)).
  apply (unquant_weight_ok Checked); auto.
Qed.

(** ** The stored weights of a legal block *)
Lemma weight_values_ok m buf l d : bytes buf -> 16 <= zlen buf ->
  let W := astc_word buf in
  layout_ok W l -> bp_weight_range d = g_range (l_grid l) -> bp_weight_num d = l_wcount l ->
  exists wv, weight_values m buf d = Ok wv /\ zlen wv = 128 /\
    forall i, 0 <= i -> znth wv i = weights_of W l i.
Proof.
  intros Hb Hl W LO Er En. unfold weight_values. rewrite Er, En.
  destruct (l_wq l) as [k n] eqn:EQ. pose proof (lo_quant _ _ LO) as Q. rewrite EQ in Q.
  destruct (weight_quant_in _ _ _ Q) as (R & I & TA & TB & N).
  rewrite (idx_ok WEIGHT_PREC_TABLE_A), TA by (change (zlen WEIGHT_PREC_TABLE_A) with 16; lia). cbn [bind].
  rewrite (idx_ok WEIGHT_PREC_TABLE_B), TB by (change (zlen WEIGHT_PREC_TABLE_B) with 16; lia). cbn [bind].
  pose proof (lo_wcount64 _ _ LO) as C. pose proof (lo_wbits _ _ LO) as WB. pose proof (lo_wbits96 _ _ LO) as WB96.
  rewrite EQ in WB. cbn [fst snd] in WB.
  destruct (intseq_ok m k buf 128 (radix_code k) n (l_wcount l) true (repeat (0, 0) 128)) as (sq & -> & F1 & F2).
  { auto. } { auto. } { eapply weight_quants_ok; eauto. } { destruct k; cbn; lia. }
  { change (zlen (repeat (0, 0) 128)) with 128. lia. }
  { cbn [seq_fits]. lia. }
  cbn [bind]. cbn [seq_bits] in F2. rewrite Z.sub_diag in F2. rewrite <- WB in F2. fold W in F2.
  destruct (for_range_inv (fun i wv => filled 0 (repeat 0 128) wv i (weights_of W l)) 0 (l_wcount l)
    (fun i wv => let* s := idx sq i in let* w := unquant_weight m (radix_code k) n s in upd wv i w) (repeat 0 128)) as (wv & E & G).
  { lia. } { apply filled_0. }
  { intros i wv Hi F. rewrite (idx_ok_d (0, 0)) by (rewrite F1; change (zlen (repeat (0, 0) 128)) with 128; lia). cbn [bind].
    rewrite F2 by lia. destruct (Z.ltb_spec i (l_wcount l)); [|lia].
    destruct (entry_range k n (bfield (rev_bits 128 W) 0 (l_wbits l)) i ltac:(lia)) as [R1 R2].
    destruct (unquant_weight_ok m k n _ I R1 R2) as [-> _]. cbn [bind].
    rewrite upd_ok by (destruct F as [-> _]; change (zlen (repeat 0 128)) with 128; lia).
    eexists; split; [reflexivity|].
    assert (weight_value k n (seq_entry k n (bfield (rev_bits 128 W) 0 (l_wbits l)) i) = weights_of W l i) as ->.
    { unfold weights_of. rewrite EQ. destruct (Z.ltb_spec i (l_wcount l)); [reflexivity|lia]. }
    apply filled_step; auto. change (zlen (repeat 0 128)) with 128; lia. }
  rewrite E. exists wv. split; auto. destruct G as [G1 G2]. split; [exact G1|].
  intros i Hi. unfold znth. rewrite G2 by auto. destruct (Z.ltb_spec i (l_wcount l)); auto.
  unfold weights_of. destruct (Z.ltb_spec i (l_wcount l)); [lia|].
  destruct (Nat.lt_ge_cases (Z.to_nat i) 128); [apply nth_repeat|apply nth_overflow; rewrite repeat_length; auto].
Qed.

(** ** Two nested loops rewriting consecutive entries once *)
Lemma refill2 {A} (d : A) nx ny (body : Z -> Z -> list A * Z -> res (list A * Z)) (F : Z -> A) l0 :
  0 <= nx -> 0 <= ny -> nx * ny <= zlen l0 ->
  (forall y x l, 0 <= y < ny -> 0 <= x < nx -> zlen l = zlen l0 -> 0 <= nx * y + x < zlen l0 ->
     nth (Z.to_nat (nx * y + x)) l d = nth (Z.to_nat (nx * y + x)) l0 d ->
     body y x (l, nx * y + x) = Ok (replace_nth (Z.to_nat (nx * y + x)) (F (nx * y + x)) l, nx * y + x + 1)) ->
  exists l, for_range 0 ny (fun y st => for_range 0 nx (body y) st) (l0, 0) = Ok (l, nx * ny) /\
    filled d l0 l (nx * ny) F.
Proof.
  intros Hx Hy Hlen Hb.
  set (I := fun k (st : list A * Z) => snd st = k /\ filled d l0 (fst st) k F).
  destruct (for_range_inv (fun y => I (nx * y)) 0 ny (fun y st => for_range 0 nx (body y) st) (l0, 0)) as ([l i] & E & E1 & E2).
  - lia.
  - unfold I. cbn [fst snd]. rewrite Z.mul_0_r. split; [lia|]. apply filled_0.
  - intros y st Hyy HI.
    destruct (for_range_inv (fun x => I (nx * y + x)) 0 nx (body y) st) as (st' & E & HI').
    + lia.
    + rewrite Z.add_0_r. auto.
    + intros x [l i] Hxx (E1 & E2). cbn [fst snd] in *. subst i.
      assert (0 <= nx * y) by (apply Z.mul_nonneg_nonneg; lia).
      assert (nx * (y + 1) <= nx * ny) by (apply Z.mul_le_mono_nonneg_l; lia).
      rewrite Hb; try lia; [|apply E2|].
      * eexists; split; [reflexivity|]. unfold I. cbn [fst snd]. split; [lia|].
        replace (nx * y + (x + 1)) with (nx * y + x + 1) by lia. apply filled_step; [lia|auto].
      * destruct E2 as [_ E2]. rewrite E2 by lia. destruct (Z.ltb_spec (nx * y + x) (nx * y + x)); [lia|auto].
    + rewrite E. eexists; split; [reflexivity|]. replace (nx * (y + 1)) with (nx * y + nx) by lia. auto.
  - cbn [fst snd] in *. subst i. exists l. auto.
Qed.

Lemma replace_twice {A} (w : list A) n (x y : A) : replace_nth n y (replace_nth n x w) = replace_nth n y w.
Proof. revert n. induction w as [|a w IH]; intros [|n]; cbn [replace_nth]; auto. rewrite IH. reflexivity. Qed.

Lemma nth_repeat_lt {A} (x d : A) n k : (k < n)%nat -> nth k (repeat x n) d = x.
Proof. revert k. induction n; intros [|k] H; cbn [repeat nth]; auto; try lia. apply IHn. lia. Qed.

(** ** Infill *)
Lemma grid_pos b g s : 2 <= b <= 72 -> 2 <= g <= 12 -> 0 <= s < b ->
  let x := (1024 + b / 2) / (b - 1) * s * (g - 1) + 32 in 0 <= x < 1024 * g.
Proof.
  intros Hb Hg Hs. cbv zeta. set (q := (1024 + b / 2) / (b - 1)).
  assert (0 <= b / 2 <= 36) by (split; [apply Z.div_pos; lia|apply Z.div_le_upper_bound; lia]).
  assert (0 <= q) by (apply Z.div_pos; lia).
  assert (q * (b - 1) <= 1060). { unfold q. rewrite Z.mul_comm. etransitivity; [apply Z.mul_div_le; lia|lia]. }
  clearbody q. assert (0 <= q * s <= 1060) as Q.
  { split; [apply Z.mul_nonneg_nonneg; lia|]. etransitivity; [|eassumption]. apply Z.mul_le_mono_nonneg_l; lia. }
  revert Q. generalize (q * s). intros r Q.
  assert (0 <= r * (g - 1) <= 1060 * (g - 1)) by (split; [apply Z.mul_nonneg_nonneg; lia|apply Z.mul_le_mono_nonneg_r; lia]). lia.
Qed.

Lemma w11_range fs ft : 0 <= fs < 16 -> 0 <= ft < 16 -> 0 <= (fs * ft + 8) / 16 <= 15.
Proof. intros. split; [apply Z.div_pos; nia|apply Z.div_le_upper_bound; nia]. Qed.
Lemma blend_prod x w : 0 <= x <= 64 -> -64 <= w <= 64 -> -4096 <= x * w <= 4096.
Proof. nia. Qed.

Ltac bp := repeat match goal with
  | |- context [ia _ 32 (znth ?wv ?k * ?w)] =>
      lazymatch goal with H : -4096 <= znth wv k * w <= 4096 |- _ => fail | _ => idtac end;
      match goal with H : forall k, 0 <= k -> 0 <= znth wv k <= 64 |- _ =>
        pose proof (blend_prod (znth wv k) w (H k ltac:(lia)) ltac:(lia)) end
  end.
Lemma infill_row m (dual : bool) wv i (w : list (list Z)) v width w00 w01 w10 w11 :
  let pn := if dual then 2 else 1 in
  let at_ p k := znth wv (k * pn + p) in
  let r p := Z.shiftr (at_ p v * w00 + at_ p (v + 1) * w01 + at_ p (v + width) * w10 + at_ p (v + width + 1) * w11 + 8) 4 in
  (forall k, 0 <= k -> 0 <= znth wv k <= 64) ->
  -64 <= w00 <= 64 -> -64 <= w01 <= 64 -> -64 <= w10 <= 64 -> -64 <= w11 <= 64 ->
  0 <= v -> 0 <= width -> (v + width + 1) * pn + 1 < zlen wv -> 0 <= i < zlen w ->
  nth (Z.to_nat i) w [] = [0; 0] ->
  for_range 0 pn (fun p weights =>
    let* p00 := idx wv (v * pn + p) in
    let* p01 := idx wv ((v + 1) * pn + p) in
    let* p10 := idx wv ((v + width) * pn + p) in
    let* p11 := idx wv ((v + width + 1) * pn + p) in
    let* row := idx weights i in
    let* x00 := ia m 32 (p00 * w00) in
    let* x01 := ia m 32 (p01 * w01) in
    let* x10 := ia m 32 (p10 * w10) in
    let* x11 := ia m 32 (p11 * w11) in
    let* x := ia m 32 (x00 + x01) in
    let* x := ia m 32 (x + x10) in
    let* x := ia m 32 (x + x11) in
    let* x := ia m 32 (x + 8) in
    let* row := upd row p (Z.shiftr x 4) in
    upd weights i row) w = Ok (replace_nth (Z.to_nat i) [r 0; if dual then r 1 else 0] w).
Proof.
  intros pn at_ r H64 W00 W01 W10 W11 Hv Hw Hk Hi Hrow.
  assert (1 <= pn <= 2) by (unfold pn; destruct dual; lia).
  assert (0 <= v * pn) by (apply Z.mul_nonneg_nonneg; lia).
  assert (v * pn <= (v + 1) * pn <= (v + width + 1) * pn) by (split; apply Z.mul_le_mono_nonneg_r; lia).
  assert (v * pn <= (v + width) * pn <= (v + width + 1) * pn) by (split; apply Z.mul_le_mono_nonneg_r; lia).
  rewrite for_range_cons by lia.
  do 4 (rewrite (idx_ok wv) by lia; cbn [bind]).
  rewrite (idx_ok_d []), Hrow by auto. cbn [bind]. bp. ias.
  change (upd [0; 0] 0 ?x) with (Ok [x; 0]). cbn [bind]. rewrite upd_ok by auto. cbn [bind].
  fold (at_ 0 v) (at_ 0 (v + 1)) (at_ 0 (v + width)) (at_ 0 (v + width + 1)). fold (r 0).
  destruct dual; unfold pn in *.
  - rewrite for_range_cons by lia.
    do 4 (rewrite (idx_ok wv) by lia; cbn [bind]).
    rewrite (idx_ok_d []) by (rewrite zlen_replace_nth; auto). cbn [bind].
    rewrite nth_replace_nth by (unfold zlen in *; lia). rewrite Nat.eqb_refl. bp. ias.
    change (0 + 1) with 1. change (upd [r 0; 0] 1 ?x) with (Ok [r 0; x]). cbn [bind].
    rewrite upd_ok by (rewrite zlen_replace_nth; auto). cbn [bind].
    rewrite for_range_nil by lia.
    fold (at_ 1 v) (at_ 1 (v + 1)) (at_ 1 (v + width)) (at_ 1 (v + width + 1)). fold (r 1).
    apply (f_equal Ok), replace_twice.
  - rewrite for_range_nil by lia. reflexivity.
Qed.

Lemma small_grid width height (dual : bool) : 2 <= width <= 12 -> width * height * (if dual then 2 else 1) <= 64 ->
  (width * height + width) * (if dual then 2 else 1) + 1 < 128.
Proof. intros. rewrite Z.mul_add_distr_r. destruct dual; lia. Qed.

Lemma infill_ok m bw bh width height (dual : bool) wv F :
  2 <= bw -> 2 <= bh -> bw * bh <= 144 -> 2 <= width <= 12 -> 2 <= height <= 12 ->
  (width * height + width) * (if dual then 2 else 1) + 1 < 128 -> zlen wv = 128 -> (forall i, 0 <= i -> znth wv i = F i) -> (forall i, 0 <= F i <= 64) ->
  exists ws, infill_weights m bw bh width height dual wv = Ok ws /\
    filled [] (repeat [0; 0] 144) ws (bw * bh) (fun j =>
      let f p := infill bw bh width height (if dual then 2 else 1) F p (j mod bw) (j / bw) in
      [f 0; if dual then f 1 else 0]).
Proof.
  intros Hbw Hbh Ha Hw Hh Hn Lw HF H64.
  assert (forall k, 0 <= k -> 0 <= znth wv k <= 64) as HW by (intros k Hk; rewrite HF by auto; auto).
  assert (bw <= 72 /\ bh <= 72) as [Hbw' Hbh'] by nia.
  unfold infill_weights. rewrite ua_ok by lia. cbn [bind]. destruct (Z.eqb_spec (bw - 1) 0); [lia|]. cbn [bind].
  rewrite ua_ok by lia. cbn [bind]. destruct (Z.eqb_spec (bh - 1) 0); [lia|]. cbn [bind]. cbv zeta.
  set (pn := if dual then 2 else 1) in *. assert (1 <= pn <= 2) as Hpn by (unfold pn; destruct dual; lia).
  match goal with |- context [for_range 0 bh (fun t st => for_range 0 bw (@?f t) st) (?l0, 0)] => set (body := f);
    destruct (refill2 [] bw bh body (fun j => [infill bw bh width height pn F 0 (j mod bw) (j / bw);
      if dual then infill bw bh width height pn F 1 (j mod bw) (j / bw) else 0]) l0) as (ws & E & G) end.
  - lia.
  - lia.
  - change (zlen (repeat [0; 0] 144)) with 144. lia.
  - intros t s w Ht Hs Lws Hk Hold. change (zlen (repeat [0; 0] 144)) with 144 in *.
    rewrite nth_repeat_lt in Hold by lia.
    unfold body. cbv beta iota.
    pose proof (grid_pos bw width s ltac:(lia) Hw Hs) as Gx. pose proof (grid_pos bh height t ltac:(lia) Hh Ht) as Gy. cbv zeta in Gx, Gy.
    set (ds := (1024 + bw / 2) / (bw - 1)) in *. set (dt := (1024 + bh / 2) / (bh - 1)) in *.
    assert (0 <= bw / 2 <= 36) by (split; [apply Z.div_pos; lia|apply Z.div_le_upper_bound; lia]).
    assert (0 <= bh / 2 <= 36) by (split; [apply Z.div_pos; lia|apply Z.div_le_upper_bound; lia]).
    assert (0 <= ds <= 1060) as Bds by (unfold ds; split; [apply Z.div_pos; lia|apply Z.div_le_upper_bound; nia]).
    assert (0 <= dt <= 1060) as Bdt by (unfold dt; split; [apply Z.div_pos; lia|apply Z.div_le_upper_bound; nia]).
    assert (0 <= ds * s <= 1060 * 72) as B1 by (split; [apply Z.mul_nonneg_nonneg|apply Z.mul_le_mono_nonneg]; lia).
    assert (0 <= dt * t <= 1060 * 72) as B2 by (split; [apply Z.mul_nonneg_nonneg|apply Z.mul_le_mono_nonneg]; lia).
    assert (0 <= ds * s * (width - 1)) as B3 by (apply Z.mul_nonneg_nonneg; lia).
    assert (0 <= dt * t * (height - 1)) as B4 by (apply Z.mul_nonneg_nonneg; lia).
    do 4 (rewrite ua_ok by lia; cbn [bind]). do 4 (rewrite ua_ok by lia; cbn [bind]).
    set (gs := Z.shiftr (ds * s * (width - 1) + 32) 6). set (gt := Z.shiftr (dt * t * (height - 1) + 32) 6).
    assert (gs = (ds * s * (width - 1) + 32) / 64) as Egs by (unfold gs; rewrite shr_div by lia; reflexivity).
    assert (gt = (dt * t * (height - 1) + 32) / 64) as Egt by (unfold gt; rewrite shr_div by lia; reflexivity).
    assert (0 <= gs < 16 * width) as Bgs by (rewrite Egs; split; [apply Z.div_pos; lia|apply Z.div_lt_upper_bound; lia]).
    assert (0 <= gt < 16 * height) as Bgt by (rewrite Egt; split; [apply Z.div_pos; lia|apply Z.div_lt_upper_bound; lia]).
    clearbody gs gt. rewrite !(shr_div _ 4) by lia. change (2 ^ 4) with 16.
    assert (0 <= gs / 16 < width) as Bjs by (split; [apply Z.div_pos; lia|apply Z.div_lt_upper_bound; lia]).
    assert (0 <= gt / 16 < height) as Bjt by (split; [apply Z.div_pos; lia|apply Z.div_lt_upper_bound; lia]).
    change 0xf with (2 ^ 4 - 1). rewrite !land_mask by lia. change (2 ^ 4) with 16.
    assert (0 <= gs mod 16 < 16) as Bfs by (apply Z.mod_pos_bound; lia).
    assert (0 <= gt mod 16 < 16) as Bft by (apply Z.mod_pos_bound; lia).
    assert (gt / 16 * width <= (height - 1) * width) as B5 by (apply Z.mul_le_mono_nonneg_r; lia).
    assert (0 <= gt / 16 * width) as B6 by (apply Z.mul_nonneg_nonneg; lia).
    assert (width * height <= 144) as B7 by (etransitivity; [apply Z.mul_le_mono_nonneg with (m := 12) (q := 12)|]; lia).
    rewrite (ua_ok m 64 (gt / 16 * width)) by lia. cbn [bind].
    rewrite ua_ok by lia. cbn [bind].
    set (js := gs / 16) in *. set (jt := gt / 16) in *. set (fs := gs mod 16) in *. set (ft := gt mod 16) in *.
    pose proof (infill_row m dual wv (bw * t + s) w (js + jt * width) width
      (16 - fs - ft + (fs * ft + 8) / 16) (fs - (fs * ft + 8) / 16) (ft - (fs * ft + 8) / 16) ((fs * ft + 8) / 16)) as R.
    fold pn in R. cbv zeta in R.
    assert (0 <= (fs * ft + 8) / 16 <= 15) as BW by (apply w11_range; lia).
    lapply R; clear R; [intro R|exact HW]. do 4 (lapply R; clear R; [intro R|lia]). lapply R; clear R; [intro R|lia]. lapply R; clear R; [intro R|lia]. lapply R; clear R; [intro R|]. lapply R; clear R; [intro R|lia]. lapply R; clear R; [intro R|rewrite Hold; reflexivity].
    2:
    { assert ((js + jt * width + width + 1) * pn <= (width * height + width) * pn) by (apply Z.mul_le_mono_nonneg_r; lia).
      lia. }
    rewrite !(shr_div _ 4) in R by lia. change (2 ^ 4) with 16 in R.
    match type of R with ?a = _ => match goal with |- bind ?b _ = _ => change b with a end end.
    rewrite R. cbn [bind]. do 2 f_equal. f_equal.
    assert ((bw * t + s) mod bw = s) as -> by (symmetry; apply Z.mod_unique with t; lia).
    assert ((bw * t + s) / bw = t) as -> by (symmetry; apply Z.div_unique with s; lia).
    unfold infill. cbv zeta. fold ds dt. rewrite <- Egs, <- Egt. fold js jt fs ft.
    assert (forall p x y, 0 <= p -> 0 <= x -> 0 <= y -> znth wv ((x + y * width) * pn + p) = F ((x + y * width) * pn + p)) as HZ.
    { intros. apply HF. assert (0 <= y * width) by (apply Z.mul_nonneg_nonneg; lia).
      assert (0 <= (x + y * width) * pn) by (apply Z.mul_nonneg_nonneg; lia). lia. }
    replace (js + jt * width + 1) with (js + 1 + jt * width) by lia.
    replace (js + jt * width + width) with (js + (jt + 1) * width) by lia.
    replace (js + (jt + 1) * width + 1) with (js + 1 + (jt + 1) * width) by lia.
    rewrite !HZ by lia. destruct dual; reflexivity.
  - match goal with |- context [bind (for_range 0 bh ?f ?s) _] =>
      change (for_range 0 bh f s) with (for_range 0 bh (fun y st => for_range 0 bw (body y) st) (repeat [0; 0] 144, 0)) end.
    rewrite E. cbn [bind]. exists ws. split; auto.
Qed.

(** Infilled weights are averages. *)
Lemma infill_range bw bh gw gh pn wv p s t : (forall i, 0 <= wv i <= 64) -> 0 <= infill bw bh gw gh pn wv p s t <= 64.
Proof.
  intros H. unfold infill. cbv zeta.
  match goal with |- context [?x mod 16 * (?y mod 16)] => set (fs := x mod 16); set (ft := y mod 16) end.
  assert (0 <= fs < 16) by (apply Z.mod_pos_bound; lia). assert (0 <= ft < 16) by (apply Z.mod_pos_bound; lia).
  set (w11 := (fs * ft + 8) / 16).
  assert (0 <= w11 /\ w11 <= fs /\ w11 <= ft /\ 0 <= 16 - fs - ft + w11) as (W1 & W2 & W3 & W4).
  { assert (0 <= w11) by (apply Z.div_pos; nia). 
    assert (16 * w11 <= fs * ft + 8) by (apply Z.mul_div_le; lia).
    assert (fs * ft + 8 < 16 * w11 + 16) by (pose proof (Z.mul_succ_div_gt (fs * ft + 8) 16 ltac:(lia)) as M; fold w11 in M; lia).
    assert (0 <= fs * (15 - ft)) by (apply Z.mul_nonneg_nonneg; lia).
    assert (0 <= ft * (15 - fs)) by (apply Z.mul_nonneg_nonneg; lia).
    assert (0 <= (15 - ft) * (15 - fs)) by (apply Z.mul_nonneg_nonneg; lia). lia. }
  clearbody w11 fs ft.
  match goal with |- context [wv ?a * _ + wv ?b * _ + wv ?c * _ + wv ?d * _] =>
    pose proof (H a) as A; pose proof (H b) as B; pose proof (H c) as C; pose proof (H d) as D;
    revert A B C D; generalize (wv a) (wv b) (wv c) (wv d) end.
  intros a b c d A B C D.
  assert (forall x k, 0 <= x <= 64 -> 0 <= k -> 0 <= x * k <= 64 * k) as P
    by (intros; split; [apply Z.mul_nonneg_nonneg|apply Z.mul_le_mono_nonneg_r]; lia).
  pose proof (P a (16 - fs - ft + w11) A ltac:(lia)). pose proof (P b (fs - w11) B ltac:(lia)).
  pose proof (P c (ft - w11) C ltac:(lia)). pose proof (P d w11 D ltac:(lia)).
  split; [apply Z.div_pos; lia|]. apply Z.lt_succ_r. apply Z.div_lt_upper_bound; lia.
Qed.
