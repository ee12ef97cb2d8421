(** * Proofs about the palettes of crunch files. *)
From Verif Require Import Base BaseLemmas ModelCrn ModelCrunch SpecCrn SpecCrnLevel SpecCrnFile
  ProofHuff ProofCrnBits ProofCrnRead ProofAstcRange ProofCrnLevel ProofCrnModel.

Section Palettes.
Context (m : build) (c0 : codec) (rest : list bool).
Hypothesis HR : room c0 rest.

Lemma take_item xs md s items c : item_ok (Sym xs s) -> prepare_decoder_tables m xs = Ok md ->
  before c0 (flat_map item_bits (Sym xs s :: items) ++ rest) c ->
  exists c', decode m md c = Ok (s, c') /\ before c0 (flat_map item_bits items ++ rest) c'.
Proof.
  intros H HP B. apply item_sym in H. cbn [flat_map item_bits] in B. rewrite <- app_assoc in B.
  eapply take_sym; eauto; tauto.
Qed.

(** Items of the entries from [i] on. *)
Lemma items_from {A} (g : Z -> list A) i n : i < n -> flat_map g (zrange i n) = g i ++ flat_map g (zrange (i + 1) n).
Proof. intros H. rewrite zrange_cons by lia. reflexivity. Qed.
Lemma map_snoc {A} (g : Z -> A) n : 0 <= n -> map g (zrange 0 (n + 1)) = map g (zrange 0 n) ++ [g n].
Proof. intros H. rewrite zrange_snoc, map_app by lia. reflexivity. Qed.
Lemma flat_map_snoc {A} (g : Z -> list A) n : 0 <= n -> flat_map g (zrange 0 (n + 1)) = flat_map g (zrange 0 n) ++ g n.
Proof. intros H. rewrite zrange_snoc, flat_map_app by lia. cbn [flat_map]. rewrite app_nil_r. reflexivity. Qed.

(** The value before the [i]-th move. *)
Definition at_ (b i : Z) (d : Z -> Z) : Z := zsum i d mod b.
Lemma at_0 b d : 0 < b -> at_ b 0 d = 0.
Proof. intros H. unfold at_. rewrite zsum_0. apply Z.mod_0_l. lia. Qed.
Lemma at_next b i d : 0 <= i -> 0 < b -> (at_ b i d + d i) mod b = at_ b (i + 1) d.
Proof. intros Hi Hb. unfold at_. rewrite zsum_snoc, Zplus_mod_idemp_l by lia. reflexivity. Qed.

(** ** Alpha end points *)
Lemma alpha_ends_ok xs md d n c : 0 <= n -> prepare_decoder_tables m xs = Ok md ->
  Forall item_ok (alpha_end_items xs d n) ->
  before c0 (flat_map item_bits (alpha_end_items xs d n) ++ rest) c ->
  exists a b c', for_range 0 n (fun _ st =>
      let '(a, b, pal, cd) := st in
      let* (sa, cd) := decode m md cd in
      let* (sb, cd) := decode m md cd in
      let a := Z.land (sa + a) 255 in
      let b := Z.land (sb + b) 255 in
      Ok (a, b, pal ++ [u16 (Z.lor a (Z.shiftl b 8))], cd)) (0, 0, [], c) = Ok (a, b, alpha_ends d n, c').
Proof.
  intros Hn HP HI B.
  match goal with |- exists a b c', for_range 0 n ?g ?s = _ => destruct (for_range_inv (fun i (st : Z * Z * list Z * codec) =>
    let '(a, b, pal, cd) := st in a = at_ 256 i (fun i => d i 0) /\ b = at_ 256 i (fun i => d i 1) /\ pal = alpha_ends d i /\
    Forall item_ok (flat_map (fun i => [Sym xs (d i 0); Sym xs (d i 1)]) (zrange i n)) /\
    before c0 (flat_map item_bits (flat_map (fun i => [Sym xs (d i 0); Sym xs (d i 1)]) (zrange i n)) ++ rest) cd) 0 n g s) as ([[[a b] pal] c'] & E & Q) end.
  - exact Hn.
  - split; [|split; [|split; [|split]]]; auto.
  - intros i [[[a b] pal] cd] Hi (Ea & Eb & Ep & F & A). rewrite items_from in F, A by lia. cbn [app] in F, A.
    inversion F as [|? ? F1 F']; subst. inversion F' as [|? ? F2 F'']; subst.
    destruct (take_item xs md _ _ cd F1 HP A) as (c1 & -> & A1). cbn [bind].
    destruct (take_item xs md _ _ c1 F2 HP A1) as (c2 & -> & A2). cbn [bind].
    eexists. split; [reflexivity|]. change 255 with (2 ^ 8 - 1). rewrite !land_mask by lia. change (2 ^ 8) with 256.
    rewrite (Z.add_comm (d i 0)), (Z.add_comm (d i 1)), (at_next 256 i (fun i => d i 0)), (at_next 256 i (fun i => d i 1)) by lia.
    split; [reflexivity|]. split; [reflexivity|]. split; [|split; [exact F''|exact A2]].
    unfold alpha_ends. rewrite map_snoc by lia. f_equal. f_equal. unfold moved. fold (at_ 256 (i + 1) (fun i' => d i' 0)). fold (at_ 256 (i + 1) (fun i' => d i' 1)).
    pose proof (Z.mod_pos_bound (zsum (i + 1) (fun i' => d i' 0)) 256 ltac:(lia)) as R0. pose proof (Z.mod_pos_bound (zsum (i + 1) (fun i' => d i' 1)) 256 ltac:(lia)) as R1.
    fold (at_ 256 (i + 1) (fun i' => d i' 0)) in R0. fold (at_ 256 (i + 1) (fun i' => d i' 1)) in R1.
    rewrite shl_mul, lor_comm_add by (change (2 ^ 8) with 256; lia). change (2 ^ 8) with 256. unfold u16. change (2 ^ 16) with 65536. rewrite Z.mod_small by lia. lia.
  - destruct Q as (_ & _ & -> & _). exists a, b, c'. exact E.
Qed.

(** ** Colour end points *)
Lemma color_ends_ok x5 x6 m5 m6 d n c : 0 <= n -> prepare_decoder_tables m x5 = Ok m5 -> prepare_decoder_tables m x6 = Ok m6 ->
  Forall item_ok (color_end_items x5 x6 d n) ->
  before c0 (flat_map item_bits (color_end_items x5 x6 d n) ++ rest) c ->
  exists s c', for_range 0 n (fun _ st => color_endpoint_step m m5 m6 st) (0, 0, 0, 0, 0, 0, [], c) = Ok (s, color_ends d n, c').
Proof.
  intros Hn P5 P6 HI B.
  match goal with |- exists s c', for_range 0 n ?g ?s0 = _ => destruct (for_range_inv (fun i (st : Z * Z * Z * Z * Z * Z * list Z * codec) =>
    let '(a, b, r, e, f, h, pal, cd) := st in
    a = at_ 32 i (fun i => d i 0) /\ b = at_ 64 i (fun i => d i 1) /\ r = at_ 32 i (fun i => d i 2) /\
    e = at_ 32 i (fun i => d i 3) /\ f = at_ 64 i (fun i => d i 4) /\ h = at_ 32 i (fun i => d i 5) /\ pal = color_ends d i /\
    Forall item_ok (flat_map (fun i => map (fun k => Sym (if is_green k then x6 else x5) (d i k)) (zrange 0 6)) (zrange i n)) /\
    before c0 (flat_map item_bits (flat_map (fun i => map (fun k => Sym (if is_green k then x6 else x5) (d i k)) (zrange 0 6)) (zrange i n)) ++ rest) cd) 0 n g s0)
    as ([[[[[[[a b] r] e] f] h] pal] c'] & E & Q) end.
  - exact Hn.
  - split; [|split; [|split; [|split; [|split; [|split; [|split; [|split]]]]]]]; auto.
  - intros i [[[[[[[a b] r] e] f] h] pal] cd] Hi (Ea & Eb & Er & Ee & Ef & Eh & Ep & F & A). rewrite items_from in F, A by lia.
    change (zrange 0 6) with [0; 1; 2; 3; 4; 5] in F at 1. change (zrange 0 6) with [0; 1; 2; 3; 4; 5] in A at 1. cbn [map app] in F, A.
    change (is_green 0) with false in F, A. change (is_green 1) with true in F, A. change (is_green 2) with false in F, A.
    change (is_green 3) with false in F, A. change (is_green 4) with true in F, A. change (is_green 5) with false in F, A.
    inversion F as [|? ? F1 G1]; subst. inversion G1 as [|? ? F2 G2]; subst. inversion G2 as [|? ? F3 G3]; subst.
    inversion G3 as [|? ? F4 G4]; subst. inversion G4 as [|? ? F5 G5]; subst. inversion G5 as [|? ? F6 G6]; subst. unfold color_endpoint_step.
    destruct (take_item _ _ _ _ cd F1 P5 A) as (c1 & -> & A1). cbn [bind].
    destruct (take_item _ _ _ _ c1 F2 P6 A1) as (c2 & -> & A2). cbn [bind].
    destruct (take_item _ _ _ _ c2 F3 P5 A2) as (c3 & -> & A3). cbn [bind].
    destruct (take_item _ _ _ _ c3 F4 P5 A3) as (c4 & -> & A4). cbn [bind].
    destruct (take_item _ _ _ _ c4 F5 P6 A4) as (c5 & -> & A5). cbn [bind].
    destruct (take_item _ _ _ _ c5 F6 P5 A5) as (c6 & -> & A6). cbn [bind].
    eexists. split; [reflexivity|]. change 31 with (2 ^ 5 - 1). change 63 with (2 ^ 6 - 1). rewrite !land_mask by lia. change (2 ^ 5) with 32. change (2 ^ 6) with 64.
    rewrite (at_next 32 i (fun i => d i 0)), (at_next 64 i (fun i => d i 1)), (at_next 32 i (fun i => d i 2)),
      (at_next 32 i (fun i => d i 3)), (at_next 64 i (fun i => d i 4)), (at_next 32 i (fun i => d i 5)) by lia.
    split; [reflexivity|]. split; [reflexivity|]. split; [reflexivity|]. split; [reflexivity|]. split; [reflexivity|]. split; [reflexivity|].
    split; [|split; [exact G6|exact A6]].
    unfold color_ends. rewrite map_snoc by lia. f_equal. f_equal. unfold moved.
    change (is_green 0) with false. change (is_green 1) with true. change (is_green 2) with false.
    change (is_green 3) with false. change (is_green 4) with true. change (is_green 5) with false. cbv iota.
    unfold at_.
    pose proof (Z.mod_pos_bound (zsum (i + 1) (fun i' => d i' 0)) 32 ltac:(lia)) as R0. pose proof (Z.mod_pos_bound (zsum (i + 1) (fun i' => d i' 1)) 64 ltac:(lia)) as R1.
    pose proof (Z.mod_pos_bound (zsum (i + 1) (fun i' => d i' 2)) 32 ltac:(lia)) as R2. pose proof (Z.mod_pos_bound (zsum (i + 1) (fun i' => d i' 3)) 32 ltac:(lia)) as R3.
    pose proof (Z.mod_pos_bound (zsum (i + 1) (fun i' => d i' 4)) 64 ltac:(lia)) as R4. pose proof (Z.mod_pos_bound (zsum (i + 1) (fun i' => d i' 5)) 32 ltac:(lia)) as R5.
    generalize dependent (zsum (i + 1) (fun i' => d i' 0) mod 32). generalize dependent (zsum (i + 1) (fun i' => d i' 1) mod 64). generalize dependent (zsum (i + 1) (fun i' => d i' 2) mod 32).
    generalize dependent (zsum (i + 1) (fun i' => d i' 3) mod 32). generalize dependent (zsum (i + 1) (fun i' => d i' 4) mod 64). generalize dependent (zsum (i + 1) (fun i' => d i' 5) mod 32).
    clear. intros v5 H5 v4 H4 v3 H3 v2 H2 v1 H1 v0 H0.
    rewrite !shl_mul by lia. rewrite (lor_comm_add v1 v2 5), (lor_comm_add v0 _ 11), (lor_comm_add v5 _ 16), (lor_comm_add v4 _ 21), (lor_comm_add v3 _ 27) by lia. lia.
  - destruct Q as (_ & _ & _ & _ & _ & _ & -> & _). eexists _, c'. exact E.
Qed.

(** ** Selectors *)
Definition deltas (mx : Z) : list Z * list Z :=
  (tab ((2 * mx + 1) * (2 * mx + 1)) (fun i => i mod (2 * mx + 1) - mx), tab ((2 * mx + 1) * (2 * mx + 1)) (fun i => i / (2 * mx + 1) - mx)).

Lemma delta_tables_ok mx : 0 <= mx -> delta_tables mx = Ok (deltas mx).
Proof.
  intros Hm. unfold delta_tables, deltas. set (w := 2 * mx + 1). set (n := w * w). assert (0 < w) as Hw by lia.
  match goal with |- bind (for_range 0 n ?g ?s) _ = _ => destruct (for_range_inv (fun i (st : Z * Z * list Z * list Z) =>
    let '(l, mm, d0, d1) := st in l = i mod w - mx /\ mm = i / w - mx /\
    d0 = tab n (fun j => if j <? i then j mod w - mx else 0) /\ d1 = tab n (fun j => if j <? i then j / w - mx else 0)) 0 n g s) as ([[[l mm] d0] d1] & -> & Q) end.
  - unfold n. nia.
  - rewrite Z.mod_0_l, Z.div_0_l by lia. split; [lia|]. split; [lia|]. rewrite repeat_tab.
    split; apply tab_ext; intros j Hj; destruct (Z.ltb_spec j 0); (lia || reflexivity).
  - intros i [[[l mm] d0] d1] Hi (-> & -> & -> & ->). rewrite upd_tab_if by lia. cbn [bind]. rewrite upd_tab_if by lia. cbn [bind].
    assert (forall f, tab n (fun j => if j =? i then f i else if j <? i then f j else 0) = tab n (fun j => if j <? i + 1 then f j else 0)) as K.
    { intros f. apply tab_ext. intros j Hj. destruct (Z.eqb_spec j i) as [->|].
      - destruct (Z.ltb_spec i (i + 1)); [reflexivity|lia].
      - destruct (Z.ltb_spec j i), (Z.ltb_spec j (i + 1)); try lia; reflexivity. }
    rewrite (K (fun j => j mod w - mx)), (K (fun j => j / w - mx)).
    pose proof (Z.div_mod i w ltac:(lia)) as DM. pose proof (Z.mod_pos_bound i w Hw) as MB.
    destruct (Z.ltb_spec mx (i mod w - mx + 1)) as [Hl|Hl].
    + eexists. split; [reflexivity|]. assert (i + 1 = w * (i / w + 1)) as E1 by lia.
      assert ((i + 1) mod w = 0) as -> by (rewrite E1, Z.mul_comm; apply Z.mod_mul; lia).
      assert ((i + 1) / w = i / w + 1) as -> by (rewrite E1, Z.mul_comm; apply Z.div_mul; lia).
      split; [lia|]. split; [lia|]. auto.
    + eexists. split; [reflexivity|]. assert (i + 1 = w * (i / w) + (i mod w + 1)) as E1 by lia.
      assert ((i + 1) / w = i / w /\ (i + 1) mod w = i mod w + 1) as [-> ->].
      { split; [symmetry; apply (Z.div_unique_pos _ _ _ (i mod w + 1)); lia|symmetry; apply (Z.mod_unique_pos _ _ (i / w)); lia]. }
      split; [lia|]. split; [lia|]. auto.
  - cbn [bind]. destruct Q as (_ & _ & -> & ->). f_equal. f_equal; apply tab_ext; intros j Hj; (destruct (Z.ltb_spec j n); [reflexivity|lia]).
Qed.

Lemma selector_step_ok mx b xs md (d : Z -> Z) v items c : 0 < b -> mx + 1 = 2 ^ b -> prepare_decoder_tables m xs = Ok md ->
  Forall item_ok (map (fun j => Sym xs (d j)) (zrange 0 8)) ->
  (forall j, 0 <= j < 8 -> 0 <= d j < (2 * mx + 1) * (2 * mx + 1)) ->
  before c0 (flat_map item_bits (map (fun j => Sym xs (d j)) (zrange 0 8) ++ items) ++ rest) c ->
  exists c', selector_step m mx md (fst (deltas mx)) (snd (deltas mx)) (tab 16 v, c) =
    Ok (tab 16 (fun k => (v k + shift_by mx (d (k / 2)) k) mod (mx + 1)), c') /\
    before c0 (flat_map item_bits items ++ rest) c'.
Proof.
  intros Hb0 Hb HP HI HD B. set (new := fun k => (v k + shift_by mx (d (k / 2)) k) mod (mx + 1)). unfold selector_step.
  assert (1 < 2 ^ b) as Hp by (apply Z.pow_gt_1; lia).
  match goal with |- exists c', for_range 0 8 ?g ?s0 = _ /\ _ => destruct (for_range_inv (fun j (st : list Z * codec) =>
    let '(cur, cd) := st in cur = tab 16 (fun k => if k <? 2 * j then new k else v k) /\
    Forall item_ok (map (fun j => Sym xs (d j)) (zrange j 8)) /\
    before c0 (flat_map item_bits (map (fun j => Sym xs (d j)) (zrange j 8) ++ items) ++ rest) cd) 0 8 g s0) as ([cur c'] & -> & Q) end.
  - lia.
  - split; [|split; [exact HI|exact B]]. apply tab_ext. intros k Hk. destruct (Z.ltb_spec k (2 * 0)); [lia|reflexivity].
  - intros j [cur cd] Hj (-> & F & A). rewrite zrange_cons in F, A by lia. cbn [map app] in F, A. inversion F as [|? ? F1 F']; subst.
    destruct (take_item xs md _ _ cd F1 HP A) as (c1 & -> & A1). cbn [bind]. specialize (HD j Hj). cbn [fst snd deltas].
    set (w := 2 * mx + 1) in *. rewrite idx_tab by lia. cbn [bind]. rewrite idx_tab by lia. cbn [bind]. rewrite upd_tab_if by lia. cbn [bind].
    rewrite idx_tab by lia. cbn [bind]. rewrite idx_tab by lia. cbn [bind]. rewrite upd_tab_if by lia. cbn [bind].
    eexists. split; [reflexivity|]. split; [|split; [exact F'|exact A1]]. apply tab_ext. intros k Hk.
    assert ((j * 2) / 2 = j /\ (j * 2) mod 2 = 0) as [Q1 Q2] by (split; [apply Z.div_mul; lia|apply Z.mod_mul; lia]).
    assert ((j * 2 + 1) / 2 = j /\ (j * 2 + 1) mod 2 = 1) as [Q3 Q4].
    { split; [symmetry; apply (Z.div_unique_pos _ _ _ 1); lia|symmetry; apply (Z.mod_unique_pos _ _ j); lia]. }
    destruct (Z.eqb_spec k (j * 2 + 1)) as [->|N1].
    + destruct (Z.ltb_spec (j * 2 + 1) (2 * (j + 1))); [|lia]. destruct (Z.eqb_spec (j * 2 + 1) (j * 2)); [lia|].
      destruct (Z.ltb_spec (j * 2 + 1) (2 * j)); [lia|]. unfold new. rewrite Q3. unfold shift_by. rewrite Q4. cbn [Z.eqb]. fold w.
      rewrite Hb. rewrite <- land_mask by lia. rewrite <- Hb. f_equal; lia.
    + destruct (Z.eqb_spec k (j * 2)) as [->|N2].
      * destruct (Z.ltb_spec (j * 2) (2 * (j + 1))); [|lia]. destruct (Z.ltb_spec (j * 2) (2 * j)); [lia|]. unfold new. rewrite Q1. unfold shift_by. rewrite Q2. cbn [Z.eqb]. fold w.
        rewrite Hb. rewrite <- land_mask by lia. rewrite <- Hb. f_equal; lia.
      * destruct (Z.ltb_spec k (2 * j)), (Z.ltb_spec k (2 * (j + 1))); try lia; reflexivity.
  - destruct Q as (-> & _ & A). exists c'. split; [|exact A]. reflexivity.
Qed.

Lemma digits_bound b n g : 0 <= n -> 0 < b -> (forall k, 0 <= k < n -> 0 <= g k < b) -> 0 <= digits b n g < b ^ n.
Proof.
  intros Hn Hb. pattern n. apply natlike_ind; [| |exact Hn]; clear n Hn.
  - intros _. unfold digits. rewrite zsum_0. change (b ^ 0) with 1. lia.
  - intros n Hn IH Hg. unfold digits, Z.succ in *. rewrite zsum_snoc by lia. rewrite Z.pow_add_r, Z.pow_1_r by lia.
    specialize (IH ltac:(intros; apply Hg; lia)). specialize (Hg n ltac:(lia)). assert (0 < b ^ n) by (apply Z.pow_pos_nonneg; lia). nia.
Qed.

Lemma color_code_range v : 0 <= znth color_code v < 4.
Proof. unfold znth. destruct (Z.to_nat v) as [|[|[|[|k]]]]; cbn; try lia. destruct k; lia. Qed.
Lemma pack_color_ok v : (forall k, 0 <= k < 16 -> 0 <= v k < 4) ->
  pack_color_selector (tab 16 v) = Ok (digits 4 16 (fun k => znth color_code (v k))).
Proof.
  intros H. unfold pack_color_selector.
  match goal with |- for_range 0 16 ?g ?s0 = _ => destruct (for_range_inv (fun k acc => acc = digits 4 k (fun k => znth color_code (v k))) 0 16 g s0) as (acc & -> & ->) end.
  - lia.
  - reflexivity.
  - intros k acc Hk ->. rewrite idx_tab by lia. cbn [bind]. specialize (H k Hk). change DXT1_FROM_LINEAR with color_code. rewrite idx_ok by (change (zlen color_code) with 4; lia). cbn [bind].
    eexists. split; [reflexivity|]. rewrite shl_mul by lia. pose proof (digits_bound 4 k (fun k => znth color_code (v k)) ltac:(lia) ltac:(lia) ltac:(intros; apply color_code_range)) as R.
    assert (4 ^ k = 2 ^ (2 * k)) as E by (rewrite Z.pow_mul_r by lia; reflexivity). rewrite lor_comm_add by (try rewrite <- E; lia).
    unfold digits at 2. rewrite zsum_snoc by lia. rewrite <- E. reflexivity.
  - reflexivity.
Qed.

Lemma alpha_code_range v : 0 <= znth alpha_code v < 8.
Proof.
  destruct (Z.lt_ge_cases v 0) as [H|H].
  - unfold znth. replace (Z.to_nat v) with 0%nat by lia. cbn. lia.
  - destruct (Z.lt_ge_cases v 8) as [H8|H8].
    + assert (v = 0 \/ v = 1 \/ v = 2 \/ v = 3 \/ v = 4 \/ v = 5 \/ v = 6 \/ v = 7) as K by lia.
      destruct K as [->|[->|[->|[->|[->|[->|[->| ->]]]]]]]; vm_compute; split; congruence.
    + rewrite znth_over by (change (zlen alpha_code) with 8; lia). lia.
Qed.
Lemma zsum_16 f : zsum 16 f = f 0 + f 1 + f 2 + f 3 + f 4 + f 5 + f 6 + f 7 + f 8 + f 9 + f 10 + f 11 + f 12 + f 13 + f 14 + f 15.
Proof. unfold zsum. change (zrange 0 16) with [0;1;2;3;4;5;6;7;8;9;10;11;12;13;14;15]. cbn [map]. unfold sum. cbn [fold_right]. lia. Qed.

Lemma alpha_word0 s0 s1 s2 s3 s4 s5 : 0 <= s0 < 8 -> 0 <= s1 < 8 -> 0 <= s2 < 8 -> 0 <= s3 < 8 -> 0 <= s4 < 8 -> 0 <= s5 < 8 ->
  Z.lor (Z.lor (Z.lor (Z.lor (Z.lor s0 (Z.shiftl s1 3)) (Z.shiftl s2 6)) (Z.shiftl s3 9)) (Z.shiftl s4 12)) (Z.shiftl s5 15) =
  s0 + 8 * s1 + 64 * s2 + 512 * s3 + 4096 * s4 + 32768 * s5.
Proof. intros. rewrite !shl_mul by lia. rewrite (lor_comm_add s1 _ 3), (lor_comm_add s2 _ 6), (lor_comm_add s3 _ 9), (lor_comm_add s4 _ 12), (lor_comm_add s5 _ 15) by lia. lia. Qed.
Lemma alpha_word1 s0 s1 s2 s3 s4 s5 : 0 <= s0 < 8 -> 0 <= s1 < 8 -> 0 <= s2 < 8 -> 0 <= s3 < 8 -> 0 <= s4 < 8 -> 0 <= s5 < 8 ->
  Z.lor (Z.lor (Z.lor (Z.lor (Z.lor (Z.shiftr s0 1) (Z.shiftl s1 2)) (Z.shiftl s2 5)) (Z.shiftl s3 8)) (Z.shiftl s4 11)) (Z.shiftl s5 14) =
  s0 / 2 + 4 * s1 + 32 * s2 + 256 * s3 + 2048 * s4 + 16384 * s5.
Proof.
  intros. rewrite !shl_mul, shr_div by lia. change (2 ^ 1) with 2. assert (0 <= s0 / 2 < 4) by dlia.
  rewrite (lor_comm_add s1 _ 2), (lor_comm_add s2 _ 5), (lor_comm_add s3 _ 8), (lor_comm_add s4 _ 11), (lor_comm_add s5 _ 14) by lia. lia.
Qed.
Lemma alpha_word2 s0 s1 s2 s3 s4 s5 : 0 <= s0 < 8 -> 0 <= s1 < 8 -> 0 <= s2 < 8 -> 0 <= s3 < 8 -> 0 <= s4 < 8 -> 0 <= s5 < 8 ->
  Z.lor (Z.lor (Z.lor (Z.lor (Z.lor (Z.shiftr s0 2) (Z.shiftl s1 1)) (Z.shiftl s2 4)) (Z.shiftl s3 7)) (Z.shiftl s4 10)) (Z.shiftl s5 13) =
  s0 / 4 + 2 * s1 + 16 * s2 + 128 * s3 + 1024 * s4 + 8192 * s5.
Proof.
  intros. rewrite !shl_mul, shr_div by lia. change (2 ^ 2) with 4. assert (0 <= s0 / 4 < 2) by dlia.
  rewrite (lor_comm_add s1 _ 1), (lor_comm_add s2 _ 4), (lor_comm_add s3 _ 7), (lor_comm_add s4 _ 10), (lor_comm_add s5 _ 13) by lia. lia.
Qed.

Lemma alpha_split A s5 B s10 C : 0 <= A < 32768 -> 0 <= s5 < 8 -> 0 <= B <= 16380 -> 0 <= s10 < 8 -> 0 <= C <= 65534 ->
  let n := A + 32768 * s5 + 65536 * (B + 16384 * s10) + 4294967296 * C in
  n / 1 mod 65536 = (A + 32768 * s5) mod 65536 /\ n / 65536 mod 65536 = (s5 / 2 + B + 16384 * s10) mod 65536 /\
  n / 4294967296 mod 65536 = s10 / 4 + C.
Proof.
  intros HA H5 HB H10 HC n.
  assert (n / 65536 = s5 / 2 + B + 16384 * s10 + C * 65536) as E1.
  { symmetry. apply (Z.div_unique_pos _ _ _ (A + 32768 * (s5 mod 2))); [dlia|]. unfold n. dlia. }
  assert (n / 4294967296 = s10 / 4 + C) as E2.
  { change 4294967296 with (65536 * 65536). rewrite <- Z.div_div by lia. rewrite E1. rewrite Z.div_add by lia. dlia. }
  rewrite E1, E2, Z.div_1_r. split; [|split].
  - unfold n. replace (A + 32768 * s5 + 65536 * (B + 16384 * s10) + 4294967296 * C) with (A + 32768 * s5 + (B + 16384 * s10 + 65536 * C) * 65536) by ring. apply Z_mod_plus_full.
  - apply Z_mod_plus_full.
  - apply Z.mod_small. dlia.
Qed.

Lemma pack_alpha_ok v : (forall k, 0 <= k < 16 -> 0 <= v k < 8) ->
  pack_alpha_selector (tab 16 v) = Ok (let n := digits 8 16 (fun k => znth alpha_code (v k)) in map (fun w => n / 65536 ^ w mod 65536) (zrange 0 3)).
Proof.
  intros H. unfold pack_alpha_selector. change DXT5_FROM_LINEAR with alpha_code.
  assert (forall k, 0 <= k < 16 -> (let* v := idx (tab 16 v) k in idx alpha_code v) = Ok (znth alpha_code (v k))) as K.
  { intros k Hk. rewrite idx_tab by lia. cbn [bind]. specialize (H k Hk). rewrite idx_ok by (change (zlen alpha_code) with 8; lia). reflexivity. }
  rewrite (K 0), (K 1), (K 2), (K 3), (K 4), (K 5), (K 6), (K 7), (K 8), (K 9), (K 10), (K 11), (K 12), (K 13), (K 14), (K 15) by lia. cbn [bind]. clear K.
  unfold digits. rewrite zsum_16. change (zrange 0 3) with [0; 1; 2]. cbn [map].
  set (s := fun k => znth alpha_code (v k)). assert (forall k, 0 <= s k < 8) as R by (intros; apply alpha_code_range).
  change (znth alpha_code (v 0)) with (s 0). change (znth alpha_code (v 1)) with (s 1). change (znth alpha_code (v 2)) with (s 2). change (znth alpha_code (v 3)) with (s 3).
  change (znth alpha_code (v 4)) with (s 4). change (znth alpha_code (v 5)) with (s 5). change (znth alpha_code (v 6)) with (s 6). change (znth alpha_code (v 7)) with (s 7).
  change (znth alpha_code (v 8)) with (s 8). change (znth alpha_code (v 9)) with (s 9). change (znth alpha_code (v 10)) with (s 10). change (znth alpha_code (v 11)) with (s 11).
  change (znth alpha_code (v 12)) with (s 12). change (znth alpha_code (v 13)) with (s 13). change (znth alpha_code (v 14)) with (s 14). change (znth alpha_code (v 15)) with (s 15).
  pose proof (R 0). pose proof (R 1). pose proof (R 2). pose proof (R 3). pose proof (R 4). pose proof (R 5). pose proof (R 6). pose proof (R 7).
  pose proof (R 8). pose proof (R 9). pose proof (R 10). pose proof (R 11). pose proof (R 12). pose proof (R 13). pose proof (R 14). pose proof (R 15). clear R H.
  generalize dependent (s 0). generalize dependent (s 1). generalize dependent (s 2). generalize dependent (s 3). generalize dependent (s 4). generalize dependent (s 5).
  generalize dependent (s 6). generalize dependent (s 7). generalize dependent (s 8). generalize dependent (s 9). generalize dependent (s 10). generalize dependent (s 11).
  generalize dependent (s 12). generalize dependent (s 13). generalize dependent (s 14). generalize dependent (s 15). clear. intros.
  rewrite alpha_word0, alpha_word1, alpha_word2 by assumption. unfold u16. change (2 ^ 16) with 65536.
  change (8 ^ 0) with 1. change (8 ^ 1) with 8. change (8 ^ 2) with 64. change (8 ^ 3) with 512. change (8 ^ 4) with 4096. change (8 ^ 5) with 32768.
  change (8 ^ 6) with 262144. change (8 ^ 7) with 2097152. change (8 ^ 8) with 16777216. change (8 ^ 9) with 134217728. change (8 ^ 10) with 1073741824.
  change (8 ^ 11) with 8589934592. change (8 ^ 12) with 68719476736. change (8 ^ 13) with 549755813888. change (8 ^ 14) with 4398046511104. change (8 ^ 15) with 35184372088832.
  change (65536 ^ 0) with 1. change (65536 ^ 1) with 65536. change (65536 ^ 2) with 4294967296.
  match goal with |- _ = Ok [?n / 1 mod _; _; _] => set (N := n) end.
  destruct (alpha_split (z14 + 8 * z13 + 64 * z12 + 512 * z11 + 4096 * z10) z9 (4 * z8 + 32 * z7 + 256 * z6 + 2048 * z5) z4 (2 * z3 + 16 * z2 + 128 * z1 + 1024 * z0 + 8192 * z)) as (E0 & E1 & E2); try lia.
  match type of E0 with ?n / 1 mod _ = _ => replace n with N in E0, E1, E2 by (unfold N; ring) end.
  rewrite E0, E1, E2. rewrite !Z.add_assoc. f_equal. f_equal. f_equal. f_equal. apply Z.mod_small. assert (0 <= z4 / 4 < 2) by dlia. lia.
Qed.

(** Both kinds of selectors: [pack] turns the sixteen values into words. *)
Lemma selectors_ok mx b xs md d n c (pack : list Z -> res (list Z)) (words_ : Z -> list Z) : 0 <= n -> 0 < b -> mx + 1 = 2 ^ b ->
  prepare_decoder_tables m xs = Ok md -> (forall i j, 0 <= d i j < (2 * mx + 1) * (2 * mx + 1)) ->
  (forall i, 0 <= i -> pack (tab 16 (selector_value mx d i)) = Ok (words_ i)) ->
  Forall item_ok (selector_items xs d n) ->
  before c0 (flat_map item_bits (selector_items xs d n) ++ rest) c ->
  exists cur c', for_range 0 n (fun _ st =>
      let '(cur, pal, cd) := st in
      let* (cur, cd) := selector_step m mx md (fst (deltas mx)) (snd (deltas mx)) (cur, cd) in
      let* v := pack cur in
      Ok (cur, pal ++ v, cd)) (repeat 0 16, [], c) = Ok (cur, flat_map words_ (zrange 0 n), c').
Proof.
  intros Hn Hb0 Hb HP HD HW HI B. assert (1 < 2 ^ b) as Hp by (apply Z.pow_gt_1; lia).
  match goal with |- exists cur c', for_range 0 n ?g ?s0 = _ => destruct (for_range_inv (fun i (st : list Z * list Z * codec) =>
    let '(cur, pal, cd) := st in cur = tab 16 (fun k => at_ (mx + 1) i (fun i' => shift_by mx (d i' (k / 2)) k)) /\ pal = flat_map words_ (zrange 0 i) /\
    Forall item_ok (flat_map (fun i => map (fun j => Sym xs (d i j)) (zrange 0 8)) (zrange i n)) /\
    before c0 (flat_map item_bits (flat_map (fun i => map (fun j => Sym xs (d i j)) (zrange 0 8)) (zrange i n)) ++ rest) cd) 0 n g s0)
    as ([[cur pal] c'] & E & Q) end.
  - exact Hn.
  - split; [|split; [reflexivity|split; [exact HI|exact B]]]. change (repeat 0 16) with (tab 16 (fun _ => 0)). apply tab_ext. intros k Hk. rewrite at_0 by lia. reflexivity.
  - intros i [[cur pal] cd] Hi (-> & -> & F & A). rewrite items_from in F, A by lia. apply Forall_app in F. destruct F as [F1 F'].
    destruct (selector_step_ok mx b xs md (d i) (fun k => at_ (mx + 1) i (fun i' => shift_by mx (d i' (k / 2)) k)) _ cd Hb0 Hb HP F1 ltac:(intros; apply HD) A) as (c1 & -> & A1).
    cbn [bind].
    assert (tab 16 (fun k => (at_ (mx + 1) i (fun i' => shift_by mx (d i' (k / 2)) k) + shift_by mx (d i (k / 2)) k) mod (mx + 1)) = tab 16 (selector_value mx d i)) as ->.
    { apply tab_ext. intros k Hk. rewrite (at_next (mx + 1) i (fun i' => shift_by mx (d i' (k / 2)) k)) by lia. reflexivity. }
    rewrite HW by lia. cbn [bind]. eexists. split; [reflexivity|]. split; [apply tab_ext; intros; reflexivity|]. split; [|split; [exact F'|exact A1]].
    rewrite flat_map_snoc by lia. reflexivity.
  - destruct Q as (_ & -> & _). exists cur, c'. exact E.
Qed.
End Palettes.
