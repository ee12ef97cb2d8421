(** * Proofs that no data of a level makes the crunch unpackers panic. *)
From Verif Require Import Base BaseLemmas ModelCrn ModelCrunch SpecCrn SpecCrnLevel SpecHuff
  ProofHuff ProofCrnIndex ProofCrnGrid ProofCrnLevel ProofLoops ProofHuffAll.

(** ** Computations that do not panic
    They fail only if [inc]. *)
Definition calm {A} (inc : Prop) (P : A -> Prop) (r : res A) : Prop :=
  match r with Ok a => P a | Err _ => inc | Panic => False end.
Lemma calm_bind {A B} inc (P : A -> Prop) (Q : B -> Prop) x f : calm inc P x -> (forall a, P a -> calm inc Q (f a)) -> calm inc Q (bind x f).
Proof. destruct x; cbn [calm bind]; auto. Qed.
Lemma calm_ok {A} inc (P : A -> Prop) r : (exists a, r = Ok a /\ P a) -> calm inc P r.
Proof. intros (a & -> & H). exact H. Qed.
Lemma calm_weaken {A} inc (P Q : A -> Prop) r : (forall a, P a -> Q a) -> calm inc P r -> calm inc Q r.
Proof. destruct r; cbn [calm]; auto. Qed.
Lemma calm_or_err {A} inc (P : A -> Prop) msg r : calm inc P r -> calm inc P (or_err msg r).
Proof. destruct r; cbn [calm or_err]; auto. Qed.
Lemma calm_for_range {S} inc (P : Z -> S -> Prop) f : forall n lo s, P lo s -> 0 <= n ->
  (forall i s, lo <= i < lo + n -> P i s -> calm inc (P (i + 1)) (f i s)) -> calm inc (P (lo + n)) (for_range lo (lo + n) f s).
Proof.
  intros n lo s P0 Hn. revert lo s P0. pattern n. apply natlike_ind; [|clear n Hn; intros n Hn IH|exact Hn]; intros lo s P0 St.
  - rewrite Z.add_0_r. unfold for_range. rewrite zrange_nil by lia. exact P0.
  - unfold for_range. rewrite zrange_cons by lia. cbn [for_list]. eapply calm_bind; [apply St; [lia|exact P0]|].
    intros a Pa. replace (lo + Z.succ n) with (lo + 1 + n) by lia. apply (IH (lo + 1) a Pa). intros i s' Hi. apply St. lia.
Qed.

(** ** Loops with bodies that may fail *)
Definition tried {S} (body : S -> res S) (t : S + string) : res (S + string) :=
  match t with
  | inl s => match body s with Ok s' => Ok (inl s') | Err e => Ok (inr e) | Panic => Panic end
  | inr e => Ok (inr e)
  end.
Definition outcome {S} (t : Z * (S + string)) : res (Z * S) :=
  match snd t with inl s => Ok (fst t, s) | inr e => Err e end.
Lemma for_list_low {A S T} (low : T -> res S) (f : A -> S -> res S) (g : A -> T -> res T) :
  (forall a t t', g a t = Ok t' -> bind (low t) (f a) = low t') ->
  forall l t t', for_list l g t = Ok t' -> bind (low t) (for_list l f) = low t'.
Proof.
  intros Hs. induction l as [|a l IH]; intros t t' E; cbn [for_list] in *.
  - inversion E. subst. destruct (low t'); reflexivity.
  - apply bind_ok_inv in E as (t1 & E1 & E). rewrite <- (IH _ _ E), <- (Hs _ _ _ E1). destruct (low t); reflexivity.
Qed.
Definition holds_for {S} (P : S -> Prop) (t : S + string) (inc : Prop) : Prop := match t with inl s => P s | inr _ => inc end.
Lemma tried_step {S} inc (P Q : S -> Prop) (body : S -> res S) t : holds_for P t inc -> (forall s, P s -> calm inc Q (body s)) ->
  exists t', tried body t = Ok t' /\ holds_for Q t' inc.
Proof.
  intros H St. destruct t as [s|e]; cbn [tried]; [|eexists; split; [reflexivity|exact H]].
  specialize (St s H). destruct (body s); cbn [calm] in St; [| |contradiction]; eexists; (split; [reflexivity|exact St]).
Qed.

Lemma chunk_loops_tried {S} m bpb pitch bx by_ cx cy faces (body : bool -> bool -> Z -> S -> res S) st t' :
  chunk_loops m bpb pitch bx by_ cx cy faces (fun a b d => tried (body a b d)) (inl st) = Ok t' ->
  chunk_loops m bpb pitch bx by_ cx cy faces body st = match t' with inl s => Ok s | inr e => Err e end.
Proof.
  unfold chunk_loops. intros E. apply bind_ok_inv in E as ((r & s) & E0 & E). inversion E; subst s; clear E.
  match goal with |- bind ?e _ = _ => assert (e = outcome (r, t')) as -> end.
  2: { unfold outcome. cbn [fst snd]. destruct t'; reflexivity. }
  refine (for_list_low outcome _ _ _ _ (0, inl st) _ E0). clear. intros _ s s' E. refine (for_list_low outcome _ _ _ _ s _ E). clear.
  intros y [row s] s' E. cbv zeta in E. apply bind_ok_inv in E as (a & E0 & E). apply bind_ok_inv in E as ((bd & t) & E1 & E).
  apply bind_ok_inv in E as (st1 & E2 & E). apply bind_ok_inv in E as (row1 & E3 & E). inversion E; subst s'; clear E.
  unfold outcome at 1. cbn [fst snd]. destruct s as [s|e]; cbn [bind].
  - cbv zeta. rewrite E0. cbn [bind].
    match goal with |- bind ?e _ = _ => assert (e = outcome (bd, t)) as -> end.
    { refine (for_list_low outcome _ _ _ _ (a, inl s) _ E1). clear. intros x [d s] s' E. cbv zeta in E. apply bind_ok_inv in E as (t & E0 & E).
      apply bind_ok_inv in E as (n & E1 & E). inversion E; subst s'; clear E. unfold outcome at 1. cbn [fst snd]. destruct s as [s|e]; cbn [bind tried] in *.
      - destruct (body _ _ d s) as [s'|e|]; inversion E0; subst t; cbn [bind]; [|reflexivity]. rewrite E1. reflexivity.
      - inversion E0. reflexivity. }
    unfold outcome. cbn [fst snd]. destruct t as [s'|e]; cbn [bind]; [|reflexivity]. rewrite E2. cbn [bind]. rewrite E3. reflexivity.
  - assert (exists d, (bd, t) = (d, inr e)) as (d & D); [|inversion D; reflexivity].
    revert E1. match goal with |- for_list ?l _ _ = _ -> _ => generalize l end. intros l. clear E0. revert a. clear. induction l as [|x l IH]; intros a E; cbn [for_list] in E; [inversion E; eauto|].
    apply bind_ok_inv in E as (p & E0 & E). cbv zeta in E0. cbn [tried bind] in E0. apply bind_ok_inv in E0 as (n & _ & E0). inversion E0; subst p. eapply IH, E.
Qed.
Lemma chunk_blocks_tried {S} m bpb pitch bd a b (blk : bool -> Z -> Z -> S -> res S) st t' :
  chunk_blocks m bpb pitch bd a b (fun v k d => tried (blk v k d)) (inl st) = Ok t' ->
  chunk_blocks m bpb pitch bd a b blk st = match t' with inl s => Ok s | inr e => Err e end.
Proof.
  unfold chunk_blocks. intros E. apply bind_ok_inv in E as ((r & s) & E0 & E). inversion E; subst s; clear E.
  match goal with |- bind ?e _ = _ => assert (e = outcome (r, t')) as -> end.
  2: { unfold outcome. cbn [fst snd]. destruct t'; reflexivity. }
  refine (for_list_low outcome _ _ _ _ (Z.shiftr bd 2, inl st) _ E0). clear. intros y [pd s] s' E. apply bind_ok_inv in E as ((d1 & t) & E1 & E).
  cbv zeta in E. apply bind_ok_inv in E as (o & E2 & E). apply bind_ok_inv in E as (p & E3 & E). inversion E; subst s'; clear E.
  assert (bind (outcome (pd, s)) (fun st => for_range 0 2 (fun bx st => let '(pd, st) := st in
      let visible := negb ((negb (bx =? 0) && a) || (negb (y =? 0) && b)) in
      let* st := blk visible (bx + y * 2) pd st in Ok (pd + Z.shiftr bpb 2, st)) st) = outcome (d1, t)) as L.
  { refine (for_list_low outcome _ _ _ _ (pd, s) _ E1). clear. intros x [d s] s' E. cbv zeta in E. apply bind_ok_inv in E as (t & E0 & E).
    inversion E; subst s'; clear E. unfold outcome at 1. cbn [fst snd]. destruct s as [s|e]; cbn [bind tried] in *.
    - destruct (blk _ _ d s) as [s'|e|]; inversion E0; subst t; reflexivity.
    - inversion E0. reflexivity. }
  unfold outcome at 1 in L. unfold outcome at 1. cbn [fst snd] in L |- *. destruct s as [s|e]; cbn [bind] in L |- *.
  - rewrite L. unfold outcome. cbn [fst snd]. destruct t as [s'|e]; cbn [bind]; [|reflexivity]. cbv zeta. rewrite E2. cbn [bind]. rewrite E3. reflexivity.
  - unfold outcome in L |- *. cbn [fst snd] in L |- *. destruct t; [discriminate|]. inversion L. reflexivity.
Qed.

(** ** The codec *)
Definition steady (c : codec) : Prop := fits c /\ 0 <= c_pos c < zlen (c_buf c) /\ c_end c < zlen (c_buf c).
Lemma refill_steady m c : steady c -> exists c', refill m c = Ok c' /\ steady c' /\ 16 <= c_bit_count c'.
Proof.
  intros (F & Hp & He). destruct (refill_total m c F Hp He) as (c' & E). exists c'. split; [exact E|].
  destruct (refill_fits m c c' F E) as [F' C']. split; [|exact C']. split; [exact F'|].
  unfold refill in E. destruct (_ <? 24); [|inversion E; subst; auto]. destruct (_ <? 16).
  - destruct (peek_total c (c_pos c) Hp He) as (b & q & E1 & Hq). rewrite E1 in E. cbn [bind] in E.
    destruct (peek_total c q Hq He) as (b2 & q2 & E2 & Hq2). rewrite E2 in E. cbn [bind] in E.
    apply bind_ok_inv in E as (s & _ & E). inversion E. cbn [c_buf c_pos c_end]. auto.
  - destruct (peek_total c (c_pos c) Hp He) as (b & q & E1 & Hq). rewrite E1 in E. cbn [bind] in E.
    apply bind_ok_inv in E as (s & _ & E). inversion E. cbn [c_buf c_pos c_end]. auto.
Qed.

(** A code whose symbols are at most [N]. *)
Definition serves (m : build) (inc : Prop) (md : model) (N : Z) : Prop :=
  exists sizes, any_lengths sizes /\ prepare_decoder_tables m sizes = Ok md /\ (exists s, coded sizes s) /\
    (forall s, coded sizes s -> s <= N) /\ (sum (map share sizes) < 2 ^ 16 -> inc).
Lemma decode_calm m inc md N c : serves m inc md N -> steady c ->
  calm inc (fun r => 0 <= fst r <= N /\ steady (snd r)) (decode m md c).
Proof.
  intros (xs & HA & HP & Hex & Hm & Hi) S. unfold decode. destruct (refill_steady m c S) as (c1 & E & S1 & C1). rewrite E. cbn [bind].
  destruct S1 as ((F1 & F2) & P1 & P2). destruct (lookup_cases xs HA (c_bit_buf c1) F2) as [(s & S2)|L].
  - rewrite (lookup_coded m xs md HA HP _ s F2 S2). cbn [bind]. pose proof S2 as [Hc _]. pose proof HA as [_ HF'].
    pose proof (size_range xs HF' s (proj1 Hc)) as Sz. pose proof (Hm s Hc). pose proof (proj1 Hc). rewrite ushl_ok by lia. cbn [bind calm fst snd].
    split; [lia|]. split; [|cbn [c_buf c_pos c_end]; auto]. split; cbn [c_bit_count c_bit_buf]; [lia|]. apply Z.mod_pos_bound. reflexivity.
  - rewrite (lookup_none m xs md HA HP _ F2 Hex L). cbn [bind calm]. apply Hi.
    assert (c_bit_buf c1 / 2 ^ 16 < 2 ^ 16) by (apply Z.div_lt_upper_bound; [lia|]; change (2 ^ 16 * 2 ^ 16) with (2 ^ 32); lia). lia.
Qed.

Section Safe.
Context (m : build) (u : unpacker) (inc : Prop) (W H faces : Z).
Hypothesis HW : 1 <= W.
Hypothesis HH : 1 <= H.
Hypothesis HF : 1 <= faces.
Hypothesis HS : faces = 1 \/ H mod 2 = 0.
Notation calm := (calm inc).
Notation serves := (serves m inc).
Notation cc := (chunk_cols W).
Notation cr := (chunk_rows H).
Notation AE := (u_alpha_endpoints u).
Notation AS := (u_alpha_selectors u).
Notation an := (p_num (h_alpha_selectors (u_header u))).
Notation CE := (u_color_endpoints u).
Notation CS := (u_color_selectors u).

Lemma next_index_calm msg dm N prev cd : 0 < N <= 2 ^ 30 -> serves dm N -> 0 <= prev < N -> steady cd ->
  calm (fun r => 0 <= fst r < N /\ steady (snd r)) (next_index m msg dm N prev cd).
Proof.
  intros HN Sv Hp Sd. unfold next_index. eapply calm_bind; [apply calm_or_err, (decode_calm m inc dm N cd Sv Sd)|].
  intros [d c] [Hd Sc]. cbn [fst snd] in *. rewrite ua_ok by lia. cbn [bind]. rewrite limit_ok by lia. cbn [bind calm fst snd].
  split; [apply Z.mod_pos_bound; lia|exact Sc].
Qed.
Lemma next_encoding_calm msg bits cd : serves (u_first_dm u) 8191 -> steady cd ->
  calm (fun r => 0 <= fst (fst r) < 8 /\ steady (snd r)) (next_encoding m msg u bits cd).
Proof.
  intros Sv Sd. unfold next_encoding.
  apply calm_bind with (P := fun r : Z * codec => steady (snd r)).
  - destruct (bits =? 1); [|exact Sd]. eapply calm_bind; [apply calm_or_err, (decode_calm m inc _ _ cd Sv Sd)|]. intros [s c] [_ Sc]. exact Sc.
  - intros [b c] Sc. cbn [calm fst snd] in *. split; [|exact Sc]. change 7 with (Z.ones 3). rewrite Z.land_ones by lia. apply Z.mod_pos_bound. reflexivity.
Qed.
Lemma tile_endpoints_calm msg dm pal nt prev cd : 0 < zlen pal <= 2 ^ 30 -> serves dm (zlen pal) -> 0 <= nt <= 4 -> 0 <= prev < zlen pal -> steady cd ->
  calm (fun r => zlen (fst (fst r)) = 4 /\ 0 <= snd (fst r) < zlen pal /\ steady (snd r)) (tile_endpoints m msg dm pal nt prev cd).
Proof.
  intros HN Sv Hn Hp Sd. unfold tile_endpoints.
  refine (calm_for_range inc (fun _ r => zlen (fst (fst r)) = 4 /\ 0 <= snd (fst r) < zlen pal /\ steady (snd r)) _ nt 0 (repeat 0 4, prev, cd) _ _ _).
  - cbn [fst snd]. split; [reflexivity|auto].
  - lia.
  - intros i [[eps p] c] Hi (L & Rp & Sc). cbn [fst snd] in *. eapply calm_bind; [apply next_index_calm; eassumption|].
    intros [q c'] [Hq Sc']. cbn [fst snd] in *. rewrite idx_ok by lia. cbn [bind].
    destruct (upd eps i (znth pal q)) as [e'| |] eqn:E; [|rewrite upd_ok in E by lia; discriminate..]. cbn [bind calm fst snd].
    apply upd_len in E. split; [lia|auto].
Qed.

(** Writing stays inside. *)
Lemma write_calm (dst : list Z) L pd v : zlen dst = L -> L < 2 ^ 63 -> 0 <= pd -> 4 * pd + 4 <= L -> calm (fun d => zlen d = L) (write_int m dst pd v).
Proof. intros E HL Hp Hr. rewrite write_int_ok by lia. cbn [calm]. rewrite zlen_put; rewrite ?zlen_le; lia. Qed.
Lemma write_alpha_calm (dst : list Z) L pd e w : zlen dst = L -> L < 2 ^ 63 -> 0 <= pd -> 4 * pd + 8 <= L -> calm (fun d => zlen d = L) (write_alpha m u dst pd e w).
Proof.
  intros E HL Hp Hr. unfold write_alpha. destruct w as [[w0 w1] w2]. eapply calm_bind; [apply (write_calm dst L); lia|].
  intros d Hd. cbv beta in Hd. apply write_calm; lia.
Qed.

(** The loops *)
Lemma loops_calm {S} bpb (Inv : S -> Prop) (body : bool -> bool -> Z -> S -> res S) st : 1 <= bpb -> W * bpb < 2 ^ 20 ->
  last_chunk W H faces bpb + loop_reach m H bpb < 2 ^ 31 -> Inv st ->
  (forall f x y st, 0 <= f < faces -> 0 <= x < cc -> 0 <= y < cr -> Inv st ->
    calm Inv (body (negb (2 * x + 1 <? W)) (negb (2 * y + 1 <? H)) (row_dst W H bpb f y + 2 * x * bpb) st)) ->
  calm Inv (chunk_loops m bpb (W * bpb) W H cc cr faces body st).
Proof.
  intros HB HP HL I0 St.
  destruct (chunk_loops_ok W H faces bpb HW HH HF HB HS HP m (fun _ t => holds_for Inv t inc) (fun a b d => tried (body a b d)) (inl st) HL I0) as (t' & E & I').
  - intros f x y t Hf Hx Hy Ht. apply tried_step with (P := Inv); [exact Ht|]. intros s Hs. apply St; assumption.
  - apply chunk_loops_tried in E. rewrite E. destruct t'; exact I'.
Qed.
Lemma blocks_calm {S} bpb (Inv : S -> Prop) f x y (blk : bool -> Z -> Z -> S -> res S) st : 1 <= bpb -> W * bpb < 2 ^ 20 ->
  bpb mod 4 = 0 -> faces * (2 * chunk_rows H) * bpb < 2 ^ 28 -> last_chunk W H faces bpb + block_reach m W H bpb < 2 ^ 31 ->
  0 <= f < faces -> 0 <= x < cc -> 0 <= y < cr -> Inv st ->
  (forall k pd st, 0 <= k < 4 -> Inv st -> (inside W H x y k = true -> 0 <= pd /\ 4 * pd + bpb <= faces * H * W * bpb) ->
    calm Inv (blk (inside W H x y k) k pd st)) ->
  calm Inv (chunk_blocks m bpb (W * bpb) (row_dst W H bpb f y + 2 * x * bpb) (negb (2 * x + 1 <? W)) (negb (2 * y + 1 <? H)) blk st).
Proof.
  intros HB HP HB4 HFH HK Hf Hx Hy I0 St.
  destruct (chunk_blocks_ok W H faces bpb HW HH HF HB HS HP HB4 HFH m (fun _ t => holds_for Inv t inc) f x y (fun v k d => tried (blk v k d)) (inl st) HK Hf Hx Hy I0) as (t' & E & I').
  - intros k pd t Hk Ht EP. apply tried_step with (P := Inv); [exact Ht|]. intros s Hs. apply St; [exact Hk|exact Hs|]. intros I. specialize (EP I).
    pose proof (pd_ok W H bpb f x y k HB4) as P4. rewrite <- EP in P4.
    pose proof (block_no_range W H faces HW HH HF f x y k Hf ltac:(lia) ltac:(lia) Hk I) as BR. nia.
  - apply chunk_blocks_tried in E. rewrite E. destruct t'; exact I'.
Qed.

Lemma tile_calm e tl k : 0 <= e < 8 -> 0 <= k < 4 -> idx CRND_CHUNK_ENCODING_TILES e = Ok tl -> exists t, idx tl k = Ok t /\ 0 <= t < 4.
Proof. intros He Hk Et. destruct (tiles_ok e He) as (_ & Bt & tl' & Et' & Kt). assert (tl' = tl) as -> by congruence. destruct (Kt k Hk) as [E R]. exists (tile_of e k). split; [exact E|lia]. Qed.

(** *** DXT5A *)
Definition alpha_safe : Prop := alpha_ready u /\ serves (u_first_dm u) 8191 /\ serves (u_endpoint_dm1 u) (zlen AE) /\ serves (u_selector_dm1 u) an.
Definition color_safe : Prop := color_ready u /\ serves (u_first_dm u) 8191 /\ serves (u_endpoint_dm0 u) (zlen CE) /\ serves (u_selector_dm0 u) (zlen CS).

Lemma dxt5a_calm cd dst : alpha_safe -> W * 8 < 2 ^ 20 -> last_chunk W H faces 8 + loop_reach m H 8 < 2 ^ 31 ->
  last_chunk W H faces 8 + block_reach m W H 8 < 2 ^ 31 -> faces * (2 * chunk_rows H) * 8 < 2 ^ 28 -> faces * H * W * 8 < 2 ^ 62 ->
  h_faces (u_header u) = faces -> steady cd -> zlen dst = faces * H * W * 8 ->
  calm (fun _ => True) (unpack_dxt5a m u cd dst (W * 8) W H cc cr).
Proof.
  intros (HR & SF & SE & SL) HP HL HK HFH HZ Ef Sc Ld. unfold unpack_dxt5a. rewrite Ef. pose proof HR as ((A1 & _) & _ & (A3 & _) & _). pose proof HR as (A4 & _ & A5 & _).
  apply calm_bind with (P := fun st : Z * Z * Z * codec * list Z => let '(bits, ae, al, cd, dst) := st in
    0 <= ae < zlen AE /\ 0 <= al < an /\ steady cd /\ zlen dst = faces * H * W * 8).
  2: { intros [[[[b e] l] c] d] _. exact I. }
  apply loops_calm; [lia|exact HP|exact HL|repeat split; try lia; apply Sc|].
  clear cd dst Sc Ld. intros f x y [[[[bits ae] al] cd] dst] Hf Hx Hy (Ra & Rl & Sc & Ld). unfold dxt5a_chunk. cbv zeta.
  eapply calm_bind; [apply next_encoding_calm; assumption|]. intros [[e b1] cd1] [He S1]. cbn [fst snd] in He, S1.
  destruct (tiles_ok e He) as (Ent & Bt & tl & Et & Kt). rewrite Ent. cbn [bind]. rewrite Et. cbn [bind].
  eapply calm_bind; [apply tile_endpoints_calm; (assumption || lia)|]. intros [[eps ae1] cd2] (Le & R1 & S2). cbn [fst snd] in Le, R1, S2.
  eapply calm_bind with (P := fun st : Z * codec * list Z => let '(al, cd, dst) := st in 0 <= al < an /\ steady cd /\ zlen dst = faces * H * W * 8).
  - apply blocks_calm; [lia|exact HP|reflexivity|exact HFH|exact HK|exact Hf|exact Hx|exact Hy|auto|].
    clear al cd2 dst Rl S2 Ld. intros k pd [[al cd2] dst] Hk (Rl & S2 & Ld) Hi. unfold dxt5a_block.
    eapply calm_bind; [apply next_index_calm; (assumption || lia)|]. intros [al1 cd3] [Rl1 S3]. cbn [fst snd] in Rl1, S3.
    destruct (inside W H x y k); [|repeat split; (lia || apply S3)]. specialize (Hi eq_refl).
    destruct (tile_calm e tl k He Hk Et) as (t & -> & Ht). cbn [bind]. rewrite alpha_words_ok by assumption. cbn [bind]. rewrite idx_ok by lia. cbn [bind].
    eapply calm_bind; [apply (write_alpha_calm dst (faces * H * W * 8)); lia|]. intros d Hd. cbv beta in Hd. repeat split; (lia || apply S3).
  - intros [[al1 cd3] dst1] (Rl1 & S3 & Ld1). repeat split; (lia || apply S3).
Qed.

(** *** DXT5 *)
Lemma dxt5_calm cd dst : alpha_safe -> color_safe -> W * 16 < 2 ^ 20 -> last_chunk W H faces 16 + loop_reach m H 16 < 2 ^ 31 ->
  last_chunk W H faces 16 + block_reach m W H 16 < 2 ^ 31 -> faces * (2 * chunk_rows H) * 16 < 2 ^ 28 -> faces * H * W * 16 < 2 ^ 62 ->
  h_faces (u_header u) = faces -> steady cd -> zlen dst = faces * H * W * 16 ->
  calm (fun _ => True) (unpack_dxt5 m u cd dst (W * 16) W H cc cr).
Proof.
  intros (HR & SF & SE & SL) (HC & _ & SCE & SCS) HP HL HK HFH HZ Ef Sc Ld. unfold unpack_dxt5. rewrite Ef. pose proof HR as ((A1 & _) & _ & (A3 & _) & _). pose proof HR as (A4 & _ & A5 & _).
  pose proof HC as (C1 & C2).
  apply calm_bind with (P := fun st : dxt5_state => let '(bits, ce, cs, ae, al, cd, dst) := st in
    0 <= ce < zlen CE /\ 0 <= cs < zlen CS /\ 0 <= ae < zlen AE /\ 0 <= al < an /\ steady cd /\ zlen dst = faces * H * W * 16).
  2: { intros [[[[[[b e] l] b1] b2] c] d] _. exact I. }
  apply loops_calm; [lia|exact HP|exact HL|repeat split; try lia; apply Sc|].
  clear cd dst Sc Ld. intros f x y [[[[[[bits ce] cs] ae] al] cd] dst] Hf Hx Hy (Rce & Rcs & Ra & Rl & Sc & Ld). unfold dxt5_chunk. cbv zeta.
  eapply calm_bind; [apply next_encoding_calm; assumption|]. intros [[e b1] cd1] [He S1]. cbn [fst snd] in He, S1.
  destruct (tiles_ok e He) as (Ent & Bt & tl & Et & Kt). rewrite Ent. cbn [bind]. rewrite Et. cbn [bind].
  eapply calm_bind; [apply tile_endpoints_calm; (assumption || lia)|]. intros [[eps ae1] cd2] (Le & R1 & S2). cbn [fst snd] in Le, R1, S2.
  eapply calm_bind; [apply tile_endpoints_calm; (assumption || lia)|]. intros [[ceps ce1] cd3] (Lc & R2 & S3). cbn [fst snd] in Lc, R2, S3.
  eapply calm_bind with (P := fun st : Z * Z * codec * list Z => let '(cs, al, cd, dst) := st in 0 <= cs < zlen CS /\ 0 <= al < an /\ steady cd /\ zlen dst = faces * H * W * 16).
  - apply blocks_calm; [lia|exact HP|reflexivity|exact HFH|exact HK|exact Hf|exact Hx|exact Hy|auto|].
    clear cs al cd3 dst Rcs Rl S3 Ld. intros k pd [[[cs al] cd3] dst] Hk (Rcs & Rl & S3 & Ld) Hi. unfold dxt5_block. cbv zeta.
    eapply calm_bind; [apply next_index_calm; (assumption || lia)|]. intros [al1 cd4] [Rl1 S4]. cbn [fst snd] in Rl1, S4.
    eapply calm_bind; [apply next_index_calm; (assumption || lia)|]. intros [cs1 cd5] [Rc1 S5]. cbn [fst snd] in Rc1, S5.
    destruct (inside W H x y k); [|repeat split; (lia || apply S5)]. specialize (Hi eq_refl).
    destruct (tile_calm e tl k He Hk Et) as (t & -> & Ht). cbn [bind]. rewrite alpha_words_ok by assumption. cbn [bind]. rewrite idx_ok by lia. cbn [bind].
    eapply calm_bind; [apply (write_alpha_calm dst (faces * H * W * 16)); lia|]. intros d Hd. cbv beta in Hd. rewrite idx_ok by lia. cbn [bind].
    eapply calm_bind; [apply (write_calm d (faces * H * W * 16)); lia|]. intros d' Hd'. cbv beta in Hd'. rewrite idx_ok by lia. cbn [bind].
    eapply calm_bind; [apply (write_calm d' (faces * H * W * 16)); lia|]. intros d2 Hd2. cbv beta in Hd2. repeat split; (lia || apply S5).
  - intros [[[cs1 al1] cd4] dst1] (Rc1 & Rl1 & S4 & Ld1). repeat split; (lia || apply S4).
Qed.

(** *** DXN *)
Lemma dxn_calm cd dst : alpha_safe -> W * 16 < 2 ^ 20 -> last_chunk W H faces 16 + loop_reach m H 16 < 2 ^ 31 ->
  last_chunk W H faces 16 + block_reach m W H 16 < 2 ^ 31 -> faces * (2 * chunk_rows H) * 16 < 2 ^ 28 -> faces * H * W * 16 < 2 ^ 62 ->
  h_faces (u_header u) = faces -> steady cd -> zlen dst = faces * H * W * 16 ->
  calm (fun _ => True) (unpack_dxn m u cd dst (W * 16) W H cc cr).
Proof.
  intros (HR & SF & SE & SL) HP HL HK HFH HZ Ef Sc Ld. unfold unpack_dxn. rewrite Ef. pose proof HR as ((A1 & _) & _ & (A3 & _) & _). pose proof HR as (A4 & _ & A5 & _).
  apply calm_bind with (P := fun st : dxt5_state => let '(bits, e0, s0, e1, s1, cd, dst) := st in
    0 <= e0 < zlen AE /\ 0 <= s0 < an /\ 0 <= e1 < zlen AE /\ 0 <= s1 < an /\ steady cd /\ zlen dst = faces * H * W * 16).
  2: { intros [[[[[[b e] l] b1] b2] c] d] _. exact I. }
  apply loops_calm; [lia|exact HP|exact HL|repeat split; try lia; apply Sc|].
  clear cd dst Sc Ld. intros f x y [[[[[[bits e0] s0] e1] s1] cd] dst] Hf Hx Hy (Re0 & Rs0 & Re1 & Rs1 & Sc & Ld). unfold dxn_chunk. cbv zeta.
  eapply calm_bind; [apply next_encoding_calm; assumption|]. intros [[e b1] cd1] [He S1]. cbn [fst snd] in He, S1.
  destruct (tiles_ok e He) as (Ent & Bt & tl & Et & Kt). rewrite Ent. cbn [bind]. rewrite Et. cbn [bind].
  eapply calm_bind; [apply tile_endpoints_calm; (assumption || lia)|]. intros [[eps ae1] cd2] (Le & R1 & S2). cbn [fst snd] in Le, R1, S2.
  eapply calm_bind; [apply tile_endpoints_calm; (assumption || lia)|]. intros [[ceps ce1] cd3] (Lc & R2 & S3). cbn [fst snd] in Lc, R2, S3.
  eapply calm_bind with (P := fun st : Z * Z * codec * list Z => let '(s0, s1, cd, dst) := st in 0 <= s0 < an /\ 0 <= s1 < an /\ steady cd /\ zlen dst = faces * H * W * 16).
  - apply blocks_calm; [lia|exact HP|reflexivity|exact HFH|exact HK|exact Hf|exact Hx|exact Hy|auto|].
    clear s0 s1 cd3 dst Rs0 Rs1 S3 Ld. intros k pd [[[s0 s1] cd3] dst] Hk (Rcs & Rl & S3 & Ld) Hi. unfold dxn_block. cbv zeta.
    eapply calm_bind; [apply next_index_calm; (assumption || lia)|]. intros [al1 cd4] [Rl1 S4]. cbn [fst snd] in Rl1, S4.
    eapply calm_bind; [apply next_index_calm; (assumption || lia)|]. intros [cs1 cd5] [Rc1 S5]. cbn [fst snd] in Rc1, S5.
    destruct (inside W H x y k); [|repeat split; (lia || apply S5)]. specialize (Hi eq_refl).
    destruct (tile_calm e tl k He Hk Et) as (t & -> & Ht). cbn [bind]. rewrite !alpha_words_ok by assumption. cbn [bind]. rewrite idx_ok by lia. cbn [bind].
    eapply calm_bind; [apply (write_alpha_calm dst (faces * H * W * 16)); lia|]. intros d Hd. cbv beta in Hd. rewrite idx_ok by lia. cbn [bind].
    eapply calm_bind; [apply (write_alpha_calm d (faces * H * W * 16)); lia|]. intros d' Hd'. cbv beta in Hd'. repeat split; (lia || apply S5).
  - intros [[[cs1 al1] cd4] dst1] (Rc1 & Rl1 & S4 & Ld1). repeat split; (lia || apply S4).
Qed.

(** *** DXT1 *)
Lemma dxt1_calm cd dst : color_safe -> W * 8 < 2 ^ 20 -> last_chunk W H faces 8 + loop_reach m H 8 < 2 ^ 31 -> faces * H * W * 8 < 2 ^ 62 ->
  h_faces (u_header u) = faces -> steady cd -> zlen dst = faces * H * W * 8 ->
  calm (fun _ => True) (unpack_dxt1 m u cd dst (W * 8) W H cc cr).
Proof.
  intros (HC & SF & SCE & SCS) HP HL HZ Ef Sc Ld. unfold unpack_dxt1. rewrite Ef. pose proof HC as (C1 & C2).
  apply calm_bind with (P := fun st : dxt1_state => let '(bits, ce, cs, cd, dst) := st in
    0 <= ce < zlen CE /\ 0 <= cs < zlen CS /\ steady cd /\ zlen dst = faces * H * W * 8).
  2: { intros [[[[b e] l] c] d] _. exact I. }
  apply loops_calm; [lia|exact HP|exact HL|repeat split; try lia; apply Sc|].
  clear cd dst Sc Ld. intros f x y [[[[bits ce] cs] cd] dst] Hf Hx Hy (Rce & Rcs & Sc & Ld). unfold dxt1_chunk. cbv zeta.
  eapply calm_bind; [apply next_encoding_calm; assumption|]. intros [[e b1] cd1] [He S1]. cbn [fst snd] in He, S1.
  destruct (tiles_ok e He) as (Ent & Bt & tl & Et & Kt). rewrite Ent. cbn [bind].
  eapply calm_bind; [apply tile_endpoints_calm; (assumption || lia)|]. intros [[eps ce1] cd2] (Le & R1 & S2). cbn [fst snd] in Le, R1, S2.
  rewrite Et. cbn [bind].
  assert (forall dy dx, 0 <= dy < 2 -> 0 <= dx < 2 -> inside W H x y (dx + dy * 2) = true ->
    let pd := Z.shiftr (row_dst W H 8 f y + 2 * x * 8 + W * 8 * dy) 2 + 2 * dx in 0 <= pd /\ 4 * pd + 8 <= faces * H * W * 8) as PD.
  { intros dy dx Hdy Hdx Hi pd. pose proof (block_no_range W H faces HW HH HF f x y (dx + dy * 2) Hf ltac:(lia) ltac:(lia) ltac:(lia) Hi) as BR.
    assert (4 * pd = block_no W H f x y (dx + dy * 2) * 8) as E4; [|lia]. unfold pd. rewrite <- (pd_ok W H 8 f x y (dx + dy * 2) ltac:(reflexivity)).
    replace (dx + dy * 2) with (2 * dy + dx) by ring. destruct (half_parts dy dx Hdx) as [-> ->]. rewrite shr_div by lia. change (2 ^ 2) with 4.
    f_equal. replace (dx * 8) with (2 * dx * 4) by ring. rewrite Z.div_add by lia. do 2 f_equal. ring. }
  pose proof (x_bounds W H faces 8 HW HH HF ltac:(lia) HS HP f x y Hf Hx Hy) as (XB & _ & _).
  assert (-1 <= loop_reach m H 8) as LR by (unfold loop_reach; destruct m, (Z.odd (chunk_rows H)); lia).
  set (Inv := fun st : Z * codec * list Z => let '(cs, cd, dst) := st in 0 <= cs < zlen CS /\ steady cd /\ zlen dst = faces * H * W * 8).
  assert (forall k pd st, 0 <= k < 4 -> 0 <= pd -> 4 * pd + 8 <= faces * H * W * 8 -> Inv st -> calm Inv (dxt1_full_block m u eps tl k pd st)) as FB.
  { intros k pd [[cs0 cd0] dst0] Hk Hp1 Hp2 (Rc & S0 & L0). unfold dxt1_full_block. destruct (tile_calm e tl k He Hk Et) as (t & -> & Ht). cbn [bind]. rewrite idx_ok by lia. cbn [bind].
    eapply calm_bind; [apply (write_calm dst0 (faces * H * W * 8)); lia|]. intros d Hd. cbv beta in Hd.
    eapply calm_bind; [apply next_index_calm; (assumption || lia)|]. intros [cs3 cd3] [Rc3 S3]. cbn [fst snd] in Rc3, S3. rewrite idx_ok by lia. cbn [bind].
    eapply calm_bind; [apply (write_calm d (faces * H * W * 8)); lia|]. intros d' Hd'. cbv beta in Hd'. unfold Inv. cbn [calm]. repeat split; (lia || apply S3). }
  assert (forall v k pd st, 0 <= k < 4 -> (v = true -> 0 <= pd /\ 4 * pd + 8 <= faces * H * W * 8) -> Inv st -> calm Inv (dxt1_part_block m u eps tl v k pd st)) as PB.
  { intros v k pd [[cs0 cd0] dst0] Hk Hp1 (Rc & S0 & L0). unfold dxt1_part_block.
    eapply calm_bind; [apply next_index_calm; (assumption || lia)|]. intros [cs3 cd3] [Rc3 S3]. cbn [fst snd] in Rc3, S3.
    destruct v; [|unfold Inv; cbn [calm]; repeat split; (lia || apply S3)]. specialize (Hp1 eq_refl).
    destruct (tile_calm e tl k He Hk Et) as (t & -> & Ht). cbn [bind]. rewrite idx_ok by lia. cbn [bind].
    eapply calm_bind; [apply (write_calm dst0 (faces * H * W * 8)); lia|]. intros d Hd. cbv beta in Hd. rewrite idx_ok by lia. cbn [bind].
    eapply calm_bind; [apply (write_calm d (faces * H * W * 8)); lia|]. intros d' Hd'. cbv beta in Hd'. unfold Inv. cbn [calm]. repeat split; (lia || apply S3). }
  assert (Inv (cs, cd2, dst)) as I0 by (unfold Inv; auto).
  assert (forall st, Inv st -> calm (fun st : dxt1_state => let '(bits, ce, cs, cd, dst) := st in
    0 <= ce < zlen CE /\ 0 <= cs < zlen CS /\ steady cd /\ zlen dst = faces * H * W * 8) (let '(ps, cd, dst) := st in Ok (b1, ce1, ps, cd, dst))) as Fin.
  { intros [[cs3 cd3] dst3] (G1 & G2 & G3). cbn [calm]. auto. }
  destruct (Z.ltb_spec (2 * y + 1) H) as [Ly|Ly], (Z.ltb_spec (2 * x + 1) W) as [Lx|Lx]; cbn [negb andb].
  1: { assert (forall k, 0 <= k < 4 -> inside W H x y k = true) as IA by (intros; apply inside_all; lia).
    pose proof (PD 0 0 ltac:(lia) ltac:(lia) (IA (0 + 0 * 2) ltac:(lia))) as P0. pose proof (PD 0 1 ltac:(lia) ltac:(lia) (IA (1 + 0 * 2) ltac:(lia))) as P1.
    pose proof (PD 1 0 ltac:(lia) ltac:(lia) (IA (0 + 1 * 2) ltac:(lia))) as P2. pose proof (PD 1 1 ltac:(lia) ltac:(lia) (IA (1 + 1 * 2) ltac:(lia))) as P3. cbv zeta in P0, P1, P2, P3.
    replace (W * 8 * 0) with 0 in P0, P1 by ring. replace (W * 8 * 1) with (W * 8) in P2, P3 by ring. rewrite (Z.add_0_r (row_dst W H 8 f y + 2 * x * 8)) in P0, P1.
    assert (Z.shiftr (row_dst W H 8 f y + 2 * x * 8 + W * 8) 2 = Z.shiftr (row_dst W H 8 f y + 2 * x * 8) 2 + Z.shiftr (W * 8) 2) as SA.
    { rewrite !shr_div by lia. change (2 ^ 2) with 4. replace (W * 8) with (W * 2 * 4) by ring. rewrite Z.div_add, Z.div_mul by lia. reflexivity. }
    rewrite SA in P2, P3.
    eapply calm_bind; [apply FB; [lia| | |exact I0]; lia|]. intros st1 I1. eapply calm_bind; [apply FB; [lia| | |exact I1]; lia|]. intros st2 I2.
    eapply calm_bind; [apply FB; [lia| | |exact I2]; lia|]. intros st3 I3. eapply calm_bind; [apply FB; [lia| | |exact I3]; lia|]. exact Fin. }
  all: eapply calm_bind; [|exact Fin].
  all: refine (calm_for_range inc (fun _ => Inv) _ 2 0 (cs, cd2, dst) I0 ltac:(lia) _); intros dy st Hdy Ist; assert (0 <= W * 8 * dy <= W * 8) as WD by nia;
    rewrite ua_ok by lia; cbn [bind]; rewrite ua_ok by lia; cbn [bind].
  all: refine (calm_for_range inc (fun _ => Inv) _ 2 0 st Ist ltac:(lia) _); intros dx st' Hdx Ist'; apply PB; [lia| |exact Ist']; intros V; apply (PD dy dx ltac:(lia) ltac:(lia)).
  all: rewrite <- V; unfold inside; replace (dx + dy * 2) with (2 * dy + dx) by ring; destruct (half_parts dy dx ltac:(lia)) as [-> ->];
      pose proof (cols_bounds W HW) as CB; pose proof (rows_bounds H HH) as RB;
      destruct (Z.eqb_spec dx 0), (Z.eqb_spec dy 0), (Z.ltb_spec (2 * x + dx) W), (Z.ltb_spec (2 * y + dy) H); try lia; reflexivity.
Qed.
End Safe.
