(** * Proofs that no data of a level makes the Unity crunch unpackers panic. *)
From Verif Require Import Base BaseLemmas ModelCrn ModelCrunch ModelUnity SpecCrn SpecCrnLevel SpecHuff SpecUnity SpecUnityFile SpecUnitySound
  ProofHuff ProofCrnIndex ProofCrnGrid ProofCrnLevel ProofAstcRange ProofLoops ProofHuffAll ProofCrnSafe ProofUnityGrid ProofUnityLevel ProofUnityEtc ProofUnitySound.

Definition outcome3 {S} (t : bool * Z * (S + string)) : res (bool * Z * S) :=
  match snd t with inl s => Ok (fst t, s) | inr e => Err e end.
Lemma unity_loops_tried {S} m words pitch ow oh faces (body : Z -> Z -> bool -> Z -> S -> res S) st t' :
  unity_loops m words pitch ow oh faces (fun y x v p => tried (body y x v p)) (inl st) = Ok t' ->
  unity_loops m words pitch ow oh faces body st = match t' with inl s => Ok s | inr e => Err e end.
Proof.
  unfold unity_loops. cbv zeta. intros E. apply bind_ok_inv in E as (dp & Ed & E). rewrite Ed. cbn [bind]. clear Ed.
  apply bind_ok_inv in E as ((r & s) & E0 & E). inversion E; subst s; clear E.
  match goal with |- bind ?e _ = _ => assert (e = outcome (r, t')) as -> end.
  2: { unfold outcome. cbn [fst snd]. destruct t'; reflexivity. }
  refine (for_list_low outcome _ _ _ _ (0, inl st) _ E0). clear. intros _ s s' E. refine (for_list_low outcome _ _ _ _ s _ E). clear.
  intros y [row s] s' E. apply bind_ok_inv in E as (((v & p) & t) & E1 & E). apply bind_ok_inv in E as (row1 & E3 & E). inversion E; subst s'; clear E.
  unfold outcome at 1. cbn [fst snd]. destruct s as [s|e]; cbn [bind].
  - match goal with |- bind ?e _ = _ => assert (e = outcome3 (v, p, t)) as -> end.
    { refine (for_list_low outcome3 _ _ _ _ (_, row, inl s) _ E1). clear. intros x [[v d] s] s' E. cbv zeta in E. apply bind_ok_inv in E as (t & E0 & E).
      apply bind_ok_inv in E as (n & E1 & E). inversion E; subst s'; clear E. unfold outcome3 at 1. cbn [fst snd]. destruct s as [s|e]; cbn [bind tried] in *.
      - destruct (body _ _ _ d s) as [s'|e|]; inversion E0; subst t; cbn [bind]; [|reflexivity]. rewrite E1. reflexivity.
      - inversion E0. reflexivity. }
    unfold outcome3. cbn [fst snd]. destruct t as [s'|e]; cbn [bind]; [|reflexivity]. rewrite E3. reflexivity.
  - assert (exists d, (v, p, t) = (d, inr e)) as (d & D); [|inversion D; reflexivity].
    revert E1. match goal with |- for_range _ ?h _ (?b, _, _) = _ -> _ => unfold for_range; generalize (zrange 0 h) b end. intros l b. revert b row. clear. induction l as [|x l IH]; intros b a E; cbn [for_list] in E; [inversion E; eauto|].
    apply bind_ok_inv in E as (q & E0 & E). cbv zeta in E0. cbn [tried bind] in E0. apply bind_ok_inv in E0 as (n & _ & E0). inversion E0; subst q. eapply IH, E.
Qed.

Section Safe.
Context (m : build) (u : unpacker) (inc : Prop) (W H faces : Z).
Hypothesis HW : 1 <= W.
Hypothesis HH : 1 <= H.
Hypothesis HF : 1 <= faces.
Hypothesis HS : faces = 1 \/ H mod 2 = 0.
Hypothesis HM : m = Wrapping \/ W mod 2 = 0.
Hypothesis HZ : (faces * H + 2) * (W + 2) * (4 * 4) <= 2 ^ 48.
Notation calm := (calm inc).
Notation serves := (serves m inc).
Notation cols := (u_cols W).
Notation rows := (u_rows H).
Notation seen := (u_visible_no W H).
Notation AE := (u_alpha_endpoints u).
Notation AS := (u_alpha_selectors u).
Notation CE := (u_color_endpoints u).
Notation CS := (u_color_selectors u).

Lemma u_loops_calm {S} words (Inv : S -> Prop) (body : Z -> Z -> bool -> Z -> S -> res S) st : 1 <= words <= 4 -> Inv st ->
  (forall f x y st, 0 <= f < faces -> 0 <= x < cols -> 0 <= y < rows -> Inv st ->
    calm Inv (body y x ((y <? H) && (x <? W)) (seen f x y * words) st)) ->
  calm Inv (unity_loops m words (W * (4 * words)) W H faces body st).
Proof.
  intros Hw I0 St.
  assert ((faces * H + 2) * (W + 2) * (4 * words) <= 2 ^ 48) as HZ'.
  { assert (0 <= (faces * H + 2) * (W + 2)) by nia. assert ((faces * H + 2) * (W + 2) * (4 * words) <= (faces * H + 2) * (W + 2) * (4 * 4)) by (apply Z.mul_le_mono_nonneg_l; lia). lia. }
  destruct (unity_loops_ok W H faces words HW HH HF ltac:(lia) HS HZ' ltac:(lia) m (fun _ t => holds_for Inv t inc) (fun y x v p => tried (body y x v p)) (inl st) HM I0) as (t' & E & I').
  - intros f x y t Hf Hx Hy Ht. apply tried_step with (P := Inv); [exact Ht|]. intros s Hs. apply St; assumption.
  - apply unity_loops_tried in E. rewrite E. destruct t'; exact I'.
Qed.

(** What is kept of earlier blocks. *)
Definition good (nc na : Z) (b : elem) : Prop := 0 <= b_ref b < 16 /\ 0 <= b_color b < nc /\ 0 <= b_alpha0 b < na /\ 0 <= b_alpha1 b < na.
Definition buf_good (nc na n : Z) (buf : list elem) : Prop := zlen buf = n /\ Forall (good nc na) buf.
Lemma buf_start nc na n : 0 <= n -> 1 <= nc -> 1 <= na -> buf_good nc na n (repeat default_elem (Z.to_nat n)).
Proof.
  intros Hn Hc Ha. split; [unfold zlen; rewrite repeat_length; lia|]. apply Forall_forall. intros b Ib. apply repeat_spec in Ib. subst b.
  unfold good, default_elem. cbn [b_ref b_color b_alpha0 b_alpha1]. lia.
Qed.
Lemma buf_at nc na n buf x : buf_good nc na n buf -> 0 <= x < n -> exists b, idx buf x = Ok b /\ good nc na b.
Proof.
  intros [L F] Hx. exists (nth (Z.to_nat x) buf default_elem). split; [apply idx_ok_d; lia|]. rewrite Forall_forall in F. apply F, nth_In. unfold zlen in L. lia.
Qed.
Lemma buf_upd nc na n buf x b : buf_good nc na n buf -> 0 <= x < n -> good nc na b -> calm (buf_good nc na n) (upd buf x b).
Proof.
  intros [L F] Hx G. destruct (upd buf x b) as [buf'| |] eqn:E; [|rewrite upd_ok in E by lia; discriminate..]. cbn [ProofCrnSafe.calm].
  split; [rewrite (upd_len _ _ _ _ E); exact L|exact (upd_forall _ _ _ _ _ F G E)].
Qed.

Lemma reference_calm msg y x g nc na buf cd : serves (u_first_dm u) 8191 -> 0 <= x < cols -> buf_good nc na cols buf -> steady cd ->
  calm (fun r => good nc na (snd (fst r)) /\ steady (snd r)) (unity_reference m msg u y x g buf cd).
Proof.
  intros Sv Hx Hb Sd. unfold unity_reference.
  apply calm_bind with (P := fun r : Z * codec => steady (snd r)).
  - destruct (_ && _); [|exact Sd]. eapply calm_bind; [apply calm_or_err, (decode_calm m inc _ _ cd Sv Sd)|]. intros [s c] [_ Sc]. exact Sc.
  - intros [g1 c] Sc. cbn [snd] in Sc. destruct (buf_at nc na cols buf x Hb Hx) as (b & -> & G). cbn [bind].
    destruct (_ =? 1); cbn [ProofCrnSafe.calm fst snd]; (split; [|exact Sc]); [exact G|]. destruct G as (_ & G).
    split; [|exact G]. cbn [set_ref b_ref]. rewrite land_3_mod. pose proof (Z.mod_pos_bound (Z.shiftr g1 2) 4 ltac:(lia)). lia.
Qed.
Lemma advance_calm msg dm N prev cd : 0 < N < 65536 -> serves dm N -> 0 <= prev < N -> steady cd ->
  calm (fun r => 0 <= fst r < N /\ steady (snd r)) (unity_advance m msg dm N prev cd).
Proof.
  intros HN Sv Hp Sd. unfold unity_advance. eapply calm_bind; [apply calm_or_err, (decode_calm m inc dm N cd Sv Sd)|].
  intros [d c] [Hd Sc]. cbn [fst snd] in *. rewrite ua_ok by lia. cbn [bind]. destruct (Z.leb_spec N (prev + d)); cbn [ProofCrnSafe.calm fst snd]; (split; [lia|exact Sc]).
Qed.
Lemma u16_small i : 0 <= i < 65536 -> u16 i = i.
Proof. intros Hi. unfold u16. apply Z.mod_small. exact Hi. Qed.

Definition u_first_safe : Prop := serves (u_first_dm u) 8191.
Definition u_color_safe : Prop := u_color_ready u /\ serves (u_endpoint_dm0 u) (zlen CE) /\ serves (u_selector_dm0 u) (zlen CS - 1).
Definition u_alpha_safe : Prop := u_alpha_ready u /\ serves (u_endpoint_dm1 u) (zlen AE) /\ serves (u_selector_dm1 u) (zlen AS / 3 - 1).

Lemma cols_even : even_width W = cols.
Proof. unfold even_width. rewrite even_up_land by lia. reflexivity. Qed.

(** *** DXT1 *)
Lemma u_dxt1_calm cd dst : u_first_safe -> u_color_safe -> h_faces (u_header u) = faces -> steady cd -> zlen dst = faces * H * W * 8 ->
  calm (fun _ => True) (unity_unpack_dxt1 m u cd dst (W * 8) W H).
Proof.
  intros SF ((HC & HC2) & SE & SL) Ef Sc Ld. unfold unity_unpack_dxt1. cbv zeta. rewrite Ef, cols_even. pose proof (u_cols_bounds W HW) as [C2 _].
  set (Inv := fun st : Z * Z * list elem * codec * list Z => let '(ce, g, buf, cd, dst) := st in
    0 <= ce < zlen CE /\ buf_good (zlen CE) 1 cols buf /\ steady cd /\ zlen dst = faces * H * W * (4 * 2)).
  apply calm_bind with (P := Inv). 2: { intros [st d] _. exact I. }
  apply (u_loops_calm 2 Inv); [lia| |].
  { split; [lia|]. split; [apply buf_start; lia|]. split; [exact Sc|lia]. }
  clear cd dst Sc Ld. intros f x y [[[[ce g] buf] cd] dst] Hf Hx Hy (Rc & Hb & Sc & Ld). unfold unity_dxt1_block. cbv zeta.
  eapply calm_bind; [apply reference_calm; eassumption|]. intros [[[r g1] b] cd1] [Gb S1]. cbn [fst snd] in Gb, S1.
  apply calm_bind with (P := fun q : Z * elem * codec => 0 <= fst (fst q) < zlen CE /\ good (zlen CE) 1 (snd (fst q)) /\ steady (snd q)).
  { destruct (r =? 0); [|destruct (r =? 1)].
    - eapply calm_bind; [apply advance_calm; (eassumption || lia)|]. intros [c1 cd2] [Rc1 S2]. cbn [ProofCrnSafe.calm fst snd] in *. rewrite u16_small by lia.
      destruct Gb as (G0 & G1 & G2). split; [exact Rc1|]. split; [split; [exact G0|split; [exact Rc1|exact G2]]|exact S2].
    - cbn [ProofCrnSafe.calm fst snd]. rewrite u16_small by lia. destruct Gb as (G0 & G1 & G2). split; [exact Rc|]. split; [split; [exact G0|split; [exact Rc|exact G2]]|exact S1].
    - cbn [ProofCrnSafe.calm fst snd]. split; [apply Gb|]. split; assumption. }
  intros [[c1 b1] cd2] (Rc1 & Gb1 & S2). cbn [fst snd] in Rc1, Gb1, S2.
  eapply calm_bind; [apply (buf_upd _ _ _ _ _ _ Hb Hx Gb1)|]. intros buf1 Hb1.
  eapply calm_bind; [apply calm_or_err, (decode_calm m inc _ _ _ SL S2)|]. intros [s cd3] [Rs S3]. cbn [fst snd] in Rs, S3.
  destruct ((y <? H) && (x <? W)) eqn:V; [|cbn [ProofCrnSafe.calm Inv]; auto].
  destruct (visible_split W H x y V) as [Vx Vy]. destruct (room_pos W H faces HW HH HF HZ 2 f x y dst ltac:(lia) Hf ltac:(lia) ltac:(lia) Ld) as (P1 & P2 & P3).
  rewrite idx_ok by lia. cbn [bind]. eapply calm_bind; [apply (write_calm m inc dst (zlen dst)); lia|]. intros d1 L1. cbv beta in L1.
  rewrite idx_ok by lia. cbn [bind]. eapply calm_bind; [apply (write_calm m inc d1 (zlen dst)); lia|]. intros d2 L2. cbv beta in L2.
  cbn [ProofCrnSafe.calm Inv]. split; [exact Rc1|]. split; [exact Hb1|]. split; [exact S3|lia].
Qed.
Lemma alpha_word_calm s : 0 <= s <= zlen AS / 3 - 1 -> exists w, unity_alpha_words u (s * 3) = Ok w.
Proof. intros Hs. destruct (third s (zlen AS) ltac:(lia)) as [T1 T2]. eexists. apply unity_alpha_words_ok; lia. Qed.

(** *** DXT5A *)
Lemma u_dxt5a_calm cd dst : u_first_safe -> u_alpha_safe -> h_faces (u_header u) = faces -> steady cd -> zlen dst = faces * H * W * 8 ->
  calm (fun _ => True) (unity_unpack_dxt5a m u cd dst (W * 8) W H).
Proof.
  intros SF (((HC & HC2) & _) & SE & SL) Ef Sc Ld. unfold unity_unpack_dxt5a. cbv zeta. rewrite Ef, cols_even. pose proof (u_cols_bounds W HW) as [C2 _].
  set (Inv := fun st : Z * Z * list elem * codec * list Z => let '(ae, g, buf, cd, dst) := st in
    0 <= ae < zlen AE /\ buf_good 1 (zlen AE) cols buf /\ steady cd /\ zlen dst = faces * H * W * (4 * 2)).
  apply calm_bind with (P := Inv). 2: { intros [st d] _. exact I. }
  apply (u_loops_calm 2 Inv); [lia| |].
  { split; [lia|]. split; [apply buf_start; lia|]. split; [exact Sc|lia]. }
  clear cd dst Sc Ld. intros f x y [[[[ae g] buf] cd] dst] Hf Hx Hy (Rc & Hb & Sc & Ld). unfold unity_dxt5a_block. cbv zeta.
  eapply calm_bind; [apply reference_calm; eassumption|]. intros [[[r g1] b] cd1] [Gb S1]. cbn [fst snd] in Gb, S1.
  apply calm_bind with (P := fun q : Z * elem * codec => 0 <= fst (fst q) < zlen AE /\ good 1 (zlen AE) (snd (fst q)) /\ steady (snd q)).
  { destruct Gb as (G0 & G1 & G2 & G3). destruct (r =? 0); [|destruct (r =? 1)].
    - eapply calm_bind; [apply advance_calm; (eassumption || lia)|]. intros [c1 cd2] [Rc1 S2]. cbn [ProofCrnSafe.calm fst snd] in *. rewrite u16_small by lia.
      split; [exact Rc1|]. split; [|exact S2]. repeat (split; [assumption|]); assumption.
    - cbn [ProofCrnSafe.calm fst snd]. rewrite u16_small by lia. split; [exact Rc|]. split; [|exact S1]. repeat (split; [assumption|]); assumption.
    - cbn [ProofCrnSafe.calm fst snd]. split; [exact G2|]. split; [|exact S1]. repeat (split; [assumption|]); assumption. }
  intros [[c1 b1] cd2] (Rc1 & Gb1 & S2). cbn [fst snd] in Rc1, Gb1, S2.
  eapply calm_bind; [apply (buf_upd _ _ _ _ _ _ Hb Hx Gb1)|]. intros buf1 Hb1.
  eapply calm_bind; [apply calm_or_err, (decode_calm m inc _ _ _ SL S2)|]. intros [s cd3] [Rs S3]. cbn [fst snd] in Rs, S3.
  destruct ((y <? H) && (x <? W)) eqn:V; [|cbn [ProofCrnSafe.calm Inv]; auto].
  destruct (visible_split W H x y V) as [Vx Vy]. destruct (room_pos W H faces HW HH HF HZ 2 f x y dst ltac:(lia) Hf ltac:(lia) ltac:(lia) Ld) as (P1 & P2 & P3).
  destruct (alpha_word_calm s Rs) as (w & ->). cbn [bind].
  rewrite idx_ok by lia. cbn [bind]. eapply calm_bind; [apply (write_alpha_calm m u inc dst (zlen dst)); lia|]. intros d1 L1. cbv beta in L1.
  cbn [ProofCrnSafe.calm Inv]. split; [exact Rc1|]. split; [exact Hb1|]. split; [exact S3|lia].
Qed.

(** *** DXT5 *)
Lemma u_dxt5_calm cd dst : u_first_safe -> u_color_safe -> u_alpha_safe -> h_faces (u_header u) = faces -> steady cd -> zlen dst = faces * H * W * 16 ->
  calm (fun _ => True) (unity_unpack_dxt5 m u cd dst (W * 16) W H).
Proof.
  intros SF ((HC & HC2) & SE & SL) (((HA & HA2) & _) & SA & SM) Ef Sc Ld. unfold unity_unpack_dxt5. cbv zeta. rewrite Ef, cols_even. pose proof (u_cols_bounds W HW) as [C2 _].
  set (Inv := fun st : Z * Z * Z * list elem * codec * list Z => let '(ce, ae, g, buf, cd, dst) := st in
    0 <= ce < zlen CE /\ 0 <= ae < zlen AE /\ buf_good (zlen CE) (zlen AE) cols buf /\ steady cd /\ zlen dst = faces * H * W * (4 * 4)).
  apply calm_bind with (P := Inv). 2: { intros [st d] _. exact I. }
  apply (u_loops_calm 4 Inv); [lia| |].
  { split; [lia|]. split; [lia|]. split; [apply buf_start; lia|]. split; [exact Sc|lia]. }
  clear cd dst Sc Ld. intros f x y [[[[[ce ae] g] buf] cd] dst] Hf Hx Hy (Rc & Ra & Hb & Sc & Ld). unfold unity_dxt5_block. cbv zeta.
  eapply calm_bind; [apply reference_calm; eassumption|]. intros [[[r g1] b] cd1] [Gb S1]. cbn [fst snd] in Gb, S1.
  apply calm_bind with (P := fun q : Z * Z * elem * codec => 0 <= fst (fst (fst q)) < zlen CE /\ 0 <= snd (fst (fst q)) < zlen AE /\ good (zlen CE) (zlen AE) (snd (fst q)) /\ steady (snd q)).
  { destruct Gb as (G0 & G1 & G2 & G3). destruct (r =? 0); [|destruct (r =? 1)].
    - eapply calm_bind; [apply advance_calm; (eassumption || lia)|]. intros [c1 cd2] [Rc1 S2]. cbn [fst snd] in *.
      eapply calm_bind; [apply advance_calm; (eassumption || lia)|]. intros [a1 cd3] [Ra1 S3]. cbn [ProofCrnSafe.calm fst snd] in *. rewrite !u16_small by lia.
      split; [exact Rc1|]. split; [exact Ra1|]. split; [|exact S3]. repeat (split; [assumption|]); assumption.
    - cbn [ProofCrnSafe.calm fst snd]. rewrite !u16_small by lia. split; [exact Rc|]. split; [exact Ra|]. split; [|exact S1]. repeat (split; [assumption|]); assumption.
    - cbn [ProofCrnSafe.calm fst snd]. split; [exact G1|]. split; [exact G2|]. split; [|exact S1]. repeat (split; [assumption|]); assumption. }
  intros [[[c1 a1] b1] cd2] (Rc1 & Ra1 & Gb1 & S2). cbn [fst snd] in Rc1, Ra1, Gb1, S2.
  eapply calm_bind; [apply (buf_upd _ _ _ _ _ _ Hb Hx Gb1)|]. intros buf1 Hb1.
  eapply calm_bind; [apply calm_or_err, (decode_calm m inc _ _ _ SL S2)|]. intros [s cd3] [Rs S3]. cbn [fst snd] in Rs, S3.
  eapply calm_bind; [apply calm_or_err, (decode_calm m inc _ _ _ SM S3)|]. intros [t cd4] [Rt S4]. cbn [fst snd] in Rt, S4.
  destruct ((y <? H) && (x <? W)) eqn:V; [|cbn [ProofCrnSafe.calm Inv]; auto].
  destruct (visible_split W H x y V) as [Vx Vy]. destruct (room_pos W H faces HW HH HF HZ 4 f x y dst ltac:(lia) Hf ltac:(lia) ltac:(lia) Ld) as (P1 & P2 & P3).
  destruct (alpha_word_calm t Rt) as (w & ->). cbn [bind].
  rewrite idx_ok by lia. cbn [bind]. eapply calm_bind; [apply (write_alpha_calm m u inc dst (zlen dst)); lia|]. intros d1 L1. cbv beta in L1.
  rewrite idx_ok by lia. cbn [bind]. eapply calm_bind; [apply (write_calm m inc d1 (zlen dst)); lia|]. intros d2 L2. cbv beta in L2.
  rewrite idx_ok by lia. cbn [bind]. eapply calm_bind; [apply (write_calm m inc d2 (zlen dst)); lia|]. intros d3 L3. cbv beta in L3.
  cbn [ProofCrnSafe.calm Inv]. split; [exact Rc1|]. split; [exact Ra1|]. split; [exact Hb1|]. split; [exact S4|lia].
Qed.

(** *** DXN *)
Lemma u_dxn_calm cd dst : u_first_safe -> u_alpha_safe -> h_faces (u_header u) = faces -> steady cd -> zlen dst = faces * H * W * 16 ->
  calm (fun _ => True) (unity_unpack_dxn m u cd dst (W * 16) W H).
Proof.
  intros SF (((HA & HA2) & _) & SA & SM) Ef Sc Ld. unfold unity_unpack_dxn. cbv zeta. rewrite Ef, cols_even. pose proof (u_cols_bounds W HW) as [C2 _].
  set (Inv := fun st : Z * Z * Z * list elem * codec * list Z => let '(ce, ae, g, buf, cd, dst) := st in
    0 <= ce < zlen AE /\ 0 <= ae < zlen AE /\ buf_good 1 (zlen AE) cols buf /\ steady cd /\ zlen dst = faces * H * W * (4 * 4)).
  apply calm_bind with (P := Inv). 2: { intros [st d] _. exact I. }
  apply (u_loops_calm 4 Inv); [lia| |].
  { split; [lia|]. split; [lia|]. split; [apply buf_start; lia|]. split; [exact Sc|lia]. }
  clear cd dst Sc Ld. intros f x y [[[[[ce ae] g] buf] cd] dst] Hf Hx Hy (Rc & Ra & Hb & Sc & Ld). unfold unity_dxn_block. cbv zeta.
  eapply calm_bind; [apply reference_calm; eassumption|]. intros [[[r g1] b] cd1] [Gb S1]. cbn [fst snd] in Gb, S1.
  apply calm_bind with (P := fun q : Z * Z * elem * codec => 0 <= fst (fst (fst q)) < zlen AE /\ 0 <= snd (fst (fst q)) < zlen AE /\ good 1 (zlen AE) (snd (fst q)) /\ steady (snd q)).
  { destruct Gb as (G0 & G1 & G2 & G3). destruct (r =? 0); [|destruct (r =? 1)].
    - eapply calm_bind; [apply advance_calm; (eassumption || lia)|]. intros [c1 cd2] [Rc1 S2]. cbn [fst snd] in *.
      eapply calm_bind; [apply advance_calm; (eassumption || lia)|]. intros [a1 cd3] [Ra1 S3]. cbn [ProofCrnSafe.calm fst snd] in *. rewrite !u16_small by lia.
      split; [exact Rc1|]. split; [exact Ra1|]. split; [|exact S3]. repeat (split; [assumption|]); assumption.
    - cbn [ProofCrnSafe.calm fst snd]. rewrite !u16_small by lia. split; [exact Rc|]. split; [exact Ra|]. split; [|exact S1]. repeat (split; [assumption|]); assumption.
    - cbn [ProofCrnSafe.calm fst snd]. split; [exact G2|]. split; [exact G3|]. split; [|exact S1]. repeat (split; [assumption|]); assumption. }
  intros [[[c1 a1] b1] cd2] (Rc1 & Ra1 & Gb1 & S2). cbn [fst snd] in Rc1, Ra1, Gb1, S2.
  eapply calm_bind; [apply (buf_upd _ _ _ _ _ _ Hb Hx Gb1)|]. intros buf1 Hb1.
  eapply calm_bind; [apply calm_or_err, (decode_calm m inc _ _ _ SM S2)|]. intros [s cd3] [Rs S3]. cbn [fst snd] in Rs, S3.
  eapply calm_bind; [apply calm_or_err, (decode_calm m inc _ _ _ SM S3)|]. intros [t cd4] [Rt S4]. cbn [fst snd] in Rt, S4.
  destruct ((y <? H) && (x <? W)) eqn:V; [|cbn [ProofCrnSafe.calm Inv]; auto].
  destruct (visible_split W H x y V) as [Vx Vy]. destruct (room_pos W H faces HW HH HF HZ 4 f x y dst ltac:(lia) Hf ltac:(lia) ltac:(lia) Ld) as (P1 & P2 & P3).
  destruct (alpha_word_calm s Rs) as (w & ->). cbn [bind]. destruct (alpha_word_calm t Rt) as (w2 & ->). cbn [bind].
  rewrite idx_ok by lia. cbn [bind]. eapply calm_bind; [apply (write_alpha_calm m u inc dst (zlen dst)); lia|]. intros d1 L1. cbv beta in L1.
  rewrite idx_ok by lia. cbn [bind]. eapply calm_bind; [apply (write_alpha_calm m u inc d1 (zlen dst)); lia|]. intros d2 L2. cbv beta in L2.
  cbn [ProofCrnSafe.calm Inv]. split; [exact Rc1|]. split; [exact Ra1|]. split; [exact Hb1|]. split; [exact S4|lia].
Qed.

(** *** Blocks with two halves *)
Definition u_halves_safe : Prop := u_color_ready u /\ Forall five_bits CE /\ serves (u_endpoint_dm0 u) (zlen CE) /\ serves (u_selector_dm0 u) (zlen CS / 2 - 1).
Definition u_halpha_safe : Prop := u_alpha_ready u /\ serves (u_endpoint_dm1 u) (zlen AE) /\ serves (u_selector_dm1 u) (zlen AS / 6 - 1).
Lemma etc_reference_calm msg y nc na b cd : serves (u_first_dm u) 8191 -> good nc na b -> steady cd ->
  calm (fun r => 0 <= fst (fst r) < 16 /\ good nc na (snd (fst r)) /\ steady (snd r)) (unity_etc_reference m msg u y b cd).
Proof.
  intros Sv G Sd. destruct G as (G0 & G1).
  assert (calm (fun r => b_color (snd (fst r)) = b_color b /\ b_alpha0 (snd (fst r)) = b_alpha0 b /\ b_alpha1 (snd (fst r)) = b_alpha1 b /\ steady (snd r)) (unity_etc_reference m msg u y b cd)) as K.
  { unfold unity_etc_reference. destruct (_ =? 1); [cbn [ProofCrnSafe.calm fst snd]; auto|].
    eapply calm_bind; [apply calm_or_err, (decode_calm m inc _ _ cd Sv Sd)|]. intros [s c] [_ Sc]. cbn [ProofCrnSafe.calm fst snd set_ref b_color b_alpha0 b_alpha1]. auto. }
  destruct (unity_etc_reference m msg u y b cd) as [[[r b'] cd']|e|] eqn:E; cbn [ProofCrnSafe.calm fst snd] in *; [|exact K|exact K].
  destruct (etc_reference_inv _ _ _ _ _ _ _ _ _ G0 E) as [R1 R2]. destruct K as (K1 & K2 & K3 & K4). split; [exact R1|]. split; [|exact K4].
  split; [exact R2|]. rewrite K1, K2, K3. exact G1.
Qed.
Lemma five_at_calm i : Forall five_bits CE -> 0 <= i < zlen CE -> idx CE i = Ok (znth CE i) /\ five_bits (znth CE i).
Proof. intros F Hi. pose proof (idx_ok CE i Hi) as E. split; [exact E|]. exact (proj2 (proj2 (five_at u F i _ E))). Qed.
Lemma lor_one x : Z.lor (Z.shiftl x 1) 1 = 2 * x + 1.
Proof. apply lor_flip. lia. Qed.

Lemma u_etc1_calm cd dst : u_first_safe -> u_halves_safe -> h_faces (u_header u) = faces -> steady cd -> zlen dst = faces * H * W * 8 ->
  calm (fun _ => True) (unity_unpack_etc1 m u cd dst (W * 8) W H).
Proof.
  intros SF ((HC & HC2) & F5 & SE & SL) Ef Sc Ld. unfold unity_unpack_etc1. cbv zeta. rewrite Ef, cols_even, (shl_mul cols 1) by lia. change (2 ^ 1) with 2. pose proof (u_cols_bounds W HW) as [C2 _].
  set (Inv := fun st : Z * Z * list elem * codec * list Z => let '(ce, g, buf, cd, dst) := st in
    0 <= ce < zlen CE /\ 0 <= g < zlen CE /\ buf_good (zlen CE) 1 (cols * 2) buf /\ steady cd /\ zlen dst = faces * H * W * (4 * 2)).
  apply calm_bind with (P := Inv). 2: { intros [st d] _. exact I. }
  apply (u_loops_calm 2 Inv); [lia| |].
  { split; [lia|]. split; [lia|]. split; [apply buf_start; lia|]. split; [exact Sc|lia]. }
  clear cd dst Sc Ld. intros f x y [[[[ce g] buf] cd] dst] Hf Hx Hy (Rc & Rg & Hb & Sc & Ld). unfold unity_etc1_block. cbv zeta. rewrite lor_one, (shl_mul x 1) by lia. change (2 ^ 1) with 2.
  destruct (buf_at _ _ _ _ (x * 2) Hb ltac:(lia)) as (b & -> & Gb). cbn [bind].
  eapply calm_bind; [apply etc_reference_calm; eassumption|]. intros [[r b0] cd1] (Rr & Gb0 & S1). cbn [fst snd] in Rr, Gb0, S1. clear b Gb.
  apply calm_bind with (P := fun q : Z * elem * codec => 0 <= fst (fst q) < zlen CE /\ good (zlen CE) 1 (snd (fst q)) /\ steady (snd q)).
  { destruct Gb0 as (G0 & G1 & G2 & G3). destruct (_ =? 0); [|destruct (_ =? 1); [|destruct (_ =? 3)]].
    - eapply calm_bind; [apply advance_calm; (eassumption || lia)|]. intros [c1 cd2] [Rc1 S2]. cbn [ProofCrnSafe.calm fst snd] in *. rewrite u16_small by lia.
      split; [exact Rc1|]. split; [|exact S2]. repeat (split; [assumption|]); assumption.
    - cbn [ProofCrnSafe.calm fst snd]. rewrite u16_small by lia. split; [exact Rc|]. split; [|exact S1]. repeat (split; [assumption|]); assumption.
    - cbn [ProofCrnSafe.calm fst snd]. rewrite u16_small by lia. split; [exact Rg|]. split; [|exact S1]. repeat (split; [assumption|]); assumption.
    - cbn [ProofCrnSafe.calm fst snd]. split; [exact G1|]. split; [|exact S1]. repeat (split; [assumption|]); assumption. }
  intros [[c1 b1] cd2] (Rc1 & Gb1 & S2). cbn [fst snd] in Rc1, Gb1, S2.
  eapply calm_bind; [apply (buf_upd _ _ _ _ (x * 2) _ Hb ltac:(lia) Gb1)|]. intros buf1 Hb1.
  destruct (five_at_calm c1 F5 Rc1) as [E1 V1]. rewrite E1. cbn [bind].
  eapply calm_bind; [apply calm_or_err, (decode_calm m inc _ _ _ SL S2)|]. intros [s cd3] [Rs S3]. cbn [fst snd] in Rs, S3.
  apply calm_bind with (P := fun q : Z * codec => 0 <= fst q < zlen CE /\ steady (snd q)).
  { destruct (negb _); [apply advance_calm; (assumption || lia)|]. cbn [ProofCrnSafe.calm fst snd]. auto. }
  intros [c2 cd4] [Rc2 S4]. cbn [fst snd] in Rc2, S4.
  destruct (buf_at _ _ _ _ (2 * x + 1) Hb1 ltac:(lia)) as (b2 & -> & Gb2). cbn [bind]. rewrite u16_small by lia.
  assert (good (zlen CE) 1 (set_color b2 c2)) as Gb3 by (destruct Gb2 as (G0 & G1 & G2 & G3); repeat (split; [assumption|]); assumption).
  eapply calm_bind; [apply (buf_upd _ _ _ _ (2 * x + 1) _ Hb1 ltac:(lia) Gb3)|]. intros buf2 Hb2.
  destruct (five_at_calm c2 F5 Rc2) as [E2 V2]. rewrite E2. cbn [bind]. pose proof (proj1 (proj2 Gb2)) as Rd.
  destruct ((y <? H) && (x <? W)) eqn:V; [|cbn [ProofCrnSafe.calm Inv]; auto].
  destruct (visible_split W H x y V) as [Vx Vy]. destruct (room_pos W H faces HW HH HF HZ 2 f x y dst ltac:(lia) Hf ltac:(lia) ltac:(lia) Ld) as (P1 & P2 & P3).
  pose proof (flip_ok r Rr) as Hp. set (flip := Z.lxor (Z.shiftr (Z.shiftr r 2) 1) 1) in *.
  destruct (loose_head_ok m _ _ flip V1 V2 Hp) as [-> LH]. cbn [bind]. rewrite write_bytes4_ok by lia. cbn [bind].
  rewrite lor_flip by lia. pose proof (Z.mul_div_le (zlen CS) 2 ltac:(lia)). rewrite idx_ok by lia. cbn [bind].
  eapply calm_bind; [apply (write_calm m inc _ (zlen dst)); [apply zlen_put; lia|lia..]|]. intros d2 L2. cbv beta in L2.
  cbn [ProofCrnSafe.calm Inv]. split; [exact Rc2|]. split; [exact Rd|]. split; [exact Hb2|]. split; [exact S4|lia].
Qed.
Lemma six_calm s flip : 0 <= s <= zlen AS / 6 - 1 -> 0 <= flip < 2 ->
  exists w, unity_alpha_words u (if negb (flip =? 0) then s * 6 + 3 else s * 6) = Ok w.
Proof. intros Hs Hp. rewrite alpha_six by exact Hp. pose proof (Z.mul_div_le (zlen AS) 6 ltac:(lia)). eexists. apply unity_alpha_words_ok; lia. Qed.

Lemma u_etc2a_calm cd dst : u_first_safe -> u_halves_safe -> u_halpha_safe -> h_faces (u_header u) = faces -> steady cd -> zlen dst = faces * H * W * 16 ->
  calm (fun _ => True) (unity_unpack_etc2a m u cd dst (W * 16) W H).
Proof.
  intros SF ((HC & HC2) & F5 & SE & SL) (((HA & HA2) & _) & SA & SM) Ef Sc Ld. unfold unity_unpack_etc2a. cbv zeta. rewrite Ef, cols_even, (shl_mul cols 1) by lia. change (2 ^ 1) with 2. pose proof (u_cols_bounds W HW) as [C2 _].
  set (Inv := fun st : Z * Z * Z * Z * list elem * codec * list Z => let '(ce, ae, g, h, buf, cd, dst) := st in
    0 <= ce < zlen CE /\ 0 <= ae < zlen AE /\ 0 <= g < zlen CE /\ 0 <= h < zlen AE /\ buf_good (zlen CE) (zlen AE) (cols * 2) buf /\ steady cd /\ zlen dst = faces * H * W * (4 * 4)).
  apply calm_bind with (P := Inv). 2: { intros [st d] _. exact I. }
  apply (u_loops_calm 4 Inv); [lia| |].
  { split; [lia|]. split; [lia|]. split; [lia|]. split; [lia|]. split; [apply buf_start; lia|]. split; [exact Sc|lia]. }
  clear cd dst Sc Ld. intros f x y [[[[[[ce ae] g] h] buf] cd] dst] Hf Hx Hy (Rc & Ra & Rg & Rh & Hb & Sc & Ld). unfold unity_etc2a_block. cbv zeta. rewrite lor_one, (shl_mul x 1) by lia. change (2 ^ 1) with 2.
  destruct (buf_at _ _ _ _ (x * 2) Hb ltac:(lia)) as (b & -> & Gb). cbn [bind].
  eapply calm_bind; [apply etc_reference_calm; eassumption|]. intros [[r b0] cd1] (Rr & Gb0 & S1). cbn [fst snd] in Rr, Gb0, S1. clear b Gb.
  apply calm_bind with (P := fun q : Z * Z * elem * codec => 0 <= fst (fst (fst q)) < zlen CE /\ 0 <= snd (fst (fst q)) < zlen AE /\ good (zlen CE) (zlen AE) (snd (fst q)) /\ steady (snd q)).
  { destruct Gb0 as (G0 & G1 & G2 & G3). destruct (_ =? 0); [|destruct (_ =? 1); [|destruct (_ =? 3)]].
    - eapply calm_bind; [apply advance_calm; (eassumption || lia)|]. intros [c1 cd2] [Rc1 S2]. cbn [fst snd] in *.
      eapply calm_bind; [apply advance_calm; (eassumption || lia)|]. intros [a1 cd3] [Ra1 S3]. cbn [ProofCrnSafe.calm fst snd] in *. rewrite !u16_small by lia.
      split; [exact Rc1|]. split; [exact Ra1|]. split; [|exact S3]. repeat (split; [assumption|]); assumption.
    - cbn [ProofCrnSafe.calm fst snd]. rewrite !u16_small by lia. split; [exact Rc|]. split; [exact Ra|]. split; [|exact S1]. repeat (split; [assumption|]); assumption.
    - cbn [ProofCrnSafe.calm fst snd]. rewrite !u16_small by lia. split; [exact Rg|]. split; [exact Rh|]. split; [|exact S1]. repeat (split; [assumption|]); assumption.
    - cbn [ProofCrnSafe.calm fst snd]. split; [exact G1|]. split; [exact G2|]. split; [|exact S1]. repeat (split; [assumption|]); assumption. }
  intros [[[c1 a1] b1] cd2] (Rc1 & Ra1 & Gb1 & S2). cbn [fst snd] in Rc1, Ra1, Gb1, S2.
  eapply calm_bind; [apply (buf_upd _ _ _ _ (x * 2) _ Hb ltac:(lia) Gb1)|]. intros buf1 Hb1.
  destruct (five_at_calm c1 F5 Rc1) as [E1 V1]. rewrite E1. cbn [bind].
  eapply calm_bind; [apply calm_or_err, (decode_calm m inc _ _ _ SL S2)|]. intros [s cd3] [Rs S3]. cbn [fst snd] in Rs, S3.
  eapply calm_bind; [apply calm_or_err, (decode_calm m inc _ _ _ SM S3)|]. intros [t cd4] [Rt S4]. cbn [fst snd] in Rt, S4.
  apply calm_bind with (P := fun q : Z * codec => 0 <= fst q < zlen CE /\ steady (snd q)).
  { destruct (negb _); [apply advance_calm; (assumption || lia)|]. cbn [ProofCrnSafe.calm fst snd]. auto. }
  intros [c2 cd5] [Rc2 S5]. cbn [fst snd] in Rc2, S5.
  destruct (five_at_calm c2 F5 Rc2) as [E2 V2]. rewrite E2. cbn [bind].
  destruct (buf_at _ _ _ _ (2 * x + 1) Hb1 ltac:(lia)) as (b2 & -> & Gb2). cbn [bind]. rewrite !u16_small by lia.
  pose proof (proj1 (proj2 Gb2)) as Rd. pose proof (proj1 (proj2 (proj2 Gb2))) as Re.
  assert (good (zlen CE) (zlen AE) (set_alpha0 (set_color b2 c2) a1)) as Gb3 by (destruct Gb2 as (G0 & G1 & G2 & G3); repeat (split; [assumption|]); assumption).
  eapply calm_bind; [apply (buf_upd _ _ _ _ (2 * x + 1) _ Hb1 ltac:(lia) Gb3)|]. intros buf2 Hb2.
  destruct ((y <? H) && (x <? W)) eqn:V; [|cbn [ProofCrnSafe.calm Inv]; split; [exact Rc2|]; split; [exact Ra1|]; split; [exact Rd|]; split; [exact Re|]; auto].
  destruct (visible_split W H x y V) as [Vx Vy]. destruct (room_pos W H faces HW HH HF HZ 4 f x y dst ltac:(lia) Hf ltac:(lia) ltac:(lia) Ld) as (P1 & P2 & P3).
  pose proof (flip_ok r Rr) as Hp. set (flip := Z.lxor (Z.shiftr (Z.shiftr r 2) 1) 1) in *.
  destruct (loose_head_ok m _ _ flip V1 V2 Hp) as [-> LH]. cbn [bind].
  destruct (six_calm t flip Rt Hp) as (w & ->). cbn [bind]. rewrite idx_ok by lia. cbn [bind].
  eapply calm_bind; [apply (write_alpha_calm m u inc dst (zlen dst)); lia|]. intros d1 L1. cbv beta in L1.
  rewrite write_bytes4_ok by lia. cbn [bind].
  rewrite lor_flip by lia. pose proof (Z.mul_div_le (zlen CS) 2 ltac:(lia)). rewrite idx_ok by lia. cbn [bind].
  eapply calm_bind; [apply (write_calm m inc _ (zlen dst)); [rewrite zlen_put; lia|lia..]|]. intros d2 L2. cbv beta in L2.
  cbn [ProofCrnSafe.calm Inv]. split; [exact Rc2|]. split; [exact Ra1|]. split; [exact Rd|]. split; [exact Re|]. split; [exact Hb2|]. split; [exact S5|lia].
Qed.
End Safe.
