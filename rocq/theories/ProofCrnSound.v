(** * Proofs about what any crunch file whatever unpacks to. *)
From Verif Require Import Base BaseLemmas ModelCrn ModelCrunch SpecCrn SpecCrnLevel SpecCrnSound
  ProofHuff ProofCrnIndex ProofCrnGrid ProofCrnLevel.

Ltac step H := let a := fresh "a" in let E := fresh "E" in apply bind_ok_inv in H as (a & E & H).

(** ** Loops that succeed *)
Lemma for_list_sim {A S T} (lift : S -> T) (f : A -> S -> res S) (g : A -> T -> res T) :
  (forall a s s', f a s = Ok s' -> g a (lift s) = Ok (lift s')) ->
  forall l s s', for_list l f s = Ok s' -> for_list l g (lift s) = Ok (lift s').
Proof.
  intros Hs. induction l as [|a l IH]; intros s s' E; cbn [for_list] in *; [congruence|].
  step E. rewrite (Hs _ _ _ E0). cbn [bind]. apply IH. exact E.
Qed.

(** A body that never fails: it goes on with nothing. *)
Definition safe {S} (body : S -> res S) (o : option S) : res (option S) :=
  match o with
  | None => Ok None
  | Some s => match body s with Ok s' => Ok (Some s') | _ => Ok None end
  end.
Lemma safe_ok {S} (body : S -> res S) s s' : body s = Ok s' -> safe body (Some s) = Ok (Some s').
Proof. intros E. cbn [safe]. rewrite E. reflexivity. Qed.
Definition holds_if {S} (P : S -> Prop) (o : option S) : Prop := match o with None => True | Some s => P s end.
Lemma safe_step {S} (P Q : S -> Prop) (body : S -> res S) o : holds_if P o ->
  (forall s s', P s -> body s = Ok s' -> Q s') -> exists o', safe body o = Ok o' /\ holds_if Q o'.
Proof.
  intros H St. destruct o as [s|]; cbn [safe]; [|eexists; split; [reflexivity|exact I]].
  destruct (body s) as [s'| |] eqn:E; eexists; (split; [reflexivity|]); cbn [holds_if]; auto. eapply St; eauto.
Qed.

Definition lifted {S} (s : Z * S) : Z * option S := (fst s, Some (snd s)).
Lemma chunk_loops_safe {S} m bpb pitch bx by_ cx cy faces (body : bool -> bool -> Z -> S -> res S) st st' :
  chunk_loops m bpb pitch bx by_ cx cy faces body st = Ok st' ->
  chunk_loops m bpb pitch bx by_ cx cy faces (fun a b d => safe (body a b d)) (Some st) = Ok (Some st').
Proof.
  unfold chunk_loops. intros E. step E. destruct a as [r s]. inversion E; subst s; clear E.
  match goal with |- bind ?e _ = _ => assert (e = Ok (lifted (r, st'))) as -> end.
  2: reflexivity.
  refine (for_list_sim lifted _ _ _ _ (0, st) _ E0). clear. intros _ s s' E. refine (for_list_sim lifted _ _ _ _ s _ E). clear.
  intros y [row s] s' E. unfold lifted at 1. cbn [fst snd]. cbv zeta in E |- *.
  step E. rewrite E0. cbn [bind]. step E. destruct a0 as [bd t].
  match goal with |- bind ?e _ = _ => assert (e = Ok (lifted (bd, t))) as -> end.
  { refine (for_list_sim lifted _ _ _ _ (a, s) _ E1). clear. intros x [d s] s' E. unfold lifted at 1. cbn [fst snd]. step E. rewrite (safe_ok _ _ _ E0). cbn [bind].
    step E. rewrite E1. cbn [bind]. inversion E. reflexivity. }
  unfold lifted at 1. cbn [bind fst snd]. step E. rewrite E2. cbn [bind]. step E. rewrite E3. cbn [bind]. inversion E. reflexivity.
Qed.
Lemma chunk_blocks_safe {S} m bpb pitch bd a b (blk : bool -> Z -> Z -> S -> res S) st st' :
  chunk_blocks m bpb pitch bd a b blk st = Ok st' ->
  chunk_blocks m bpb pitch bd a b (fun v k d => safe (blk v k d)) (Some st) = Ok (Some st').
Proof.
  unfold chunk_blocks. intros E. step E. destruct a0 as [r s]. inversion E; subst s; clear E.
  match goal with |- bind ?e _ = _ => assert (e = Ok (lifted (r, st'))) as -> end.
  2: reflexivity.
  refine (for_list_sim lifted _ _ _ _ (Z.shiftr bd 2, st) _ E0). clear. intros y [pd s] s' E. unfold lifted at 1. cbn [fst snd]. step E. destruct a0 as [pd' t].
  match goal with |- bind ?e _ = _ => assert (e = Ok (lifted (pd', t))) as -> end.
  { refine (for_list_sim lifted _ _ _ _ (pd, s) _ E0). clear. intros x [d s] s' E. unfold lifted at 1. cbn [fst snd]. cbv zeta in E |- *. step E. rewrite (safe_ok _ _ _ E0). cbn [bind].
    inversion E. reflexivity. }
  unfold lifted at 1. cbn [bind fst snd]. cbv zeta in E |- *. step E. rewrite E1. cbn [bind]. step E. rewrite E2. cbn [bind]. inversion E. reflexivity.
Qed.

(** ** The blocks of a list of bytes *)
Definition cell (bpb : Z) (dst : list Z) (q : Z) : list Z := tab bpb (fun i => znth dst (q * bpb + i)).

Lemma cell_same bpb dst q b : 0 < bpb -> zlen b = bpb -> 0 <= q -> q * bpb + bpb <= zlen dst -> cell bpb (put dst (q * bpb) b) q = b.
Proof.
  intros Hp Lb Hq Fit. unfold cell. apply znth_ext; [rewrite zlen_tab; lia|]. intros i Hi. rewrite zlen_tab in Hi. rewrite znth_tab by lia.
  rewrite znth_put by nia. rewrite Lb. destruct (Z.leb_spec (q * bpb) (q * bpb + i)); [|lia]. destruct (Z.ltb_spec (q * bpb + i) (q * bpb + bpb)); [|lia].
  cbn [andb]. f_equal. lia.
Qed.
Lemma cell_other bpb dst q q' b : 0 < bpb -> zlen b = bpb -> 0 <= q -> 0 <= q' -> q * bpb + bpb <= zlen dst -> q' <> q ->
  cell bpb (put dst (q * bpb) b) q' = cell bpb dst q'.
Proof.
  intros Hp Lb Hq Hq' Fit N. unfold cell. apply tab_ext. intros i Hi. rewrite znth_put by nia. rewrite Lb.
  destruct (Z.leb_spec (q * bpb) (q' * bpb + i)) as [A|A]; [|reflexivity]. destruct (Z.ltb_spec (q' * bpb + i) (q * bpb + bpb)) as [B|B]; [|reflexivity].
  exfalso. assert (q' = q) as E; [|contradiction]. assert (q' < q + 1) by nia. assert (q < q' + 1) by nia. lia.
Qed.
Lemma cells_all bpb dst n : 0 < bpb -> 0 <= n -> zlen dst = n * bpb -> dst = flat_map (cell bpb dst) (zrange 0 n).
Proof.
  intros Hp Hn L. assert (forall q, 0 <= q < n -> zlen (cell bpb dst q) = bpb) as LE by (intros q Hq; unfold cell; rewrite zlen_tab; lia).
  apply znth_ext; [rewrite (zlen_flat_map bpb) by auto; lia|]. intros i Hi.
  rewrite (znth_flat_map bpb) by (auto; lia). pose proof (Z.div_mod i bpb ltac:(lia)) as DM. pose proof (Z.mod_pos_bound i bpb ltac:(lia)) as MB.
  unfold cell. rewrite znth_tab by lia. f_equal. lia.
Qed.

(** Finitely many choices at once. *)
Lemma choice {A} (a0 : A) (P : Z -> A -> Prop) n : (forall i, 0 <= i < n -> exists a, P i a) -> exists g, forall i, 0 <= i < n -> P i (g i).
Proof.
  intros H. assert (forall k, (k <= Z.to_nat n)%nat -> exists g, forall i, 0 <= i < Z.of_nat k -> P i (g i)) as K.
  { induction k as [|k IH]; intros L; [exists (fun _ => a0); lia|]. destruct IH as [g G]; [lia|].
    destruct (H (Z.of_nat k) ltac:(lia)) as [a Ha]. exists (fun i => if i =? Z.of_nat k then a else g i). intros i Hi.
    destruct (Z.eqb_spec i (Z.of_nat k)) as [->|]; [exact Ha|apply G; lia]. }
  destruct (Z.lt_ge_cases n 0); [exists (fun _ => a0); lia|]. destruct (K (Z.to_nat n) ltac:(lia)) as [g G]. exists g. intros i Hi. apply G. lia.
Qed.

(** ** Chunk by chunk *)
Section Grid.
Context (W H faces bpb : Z) (planes : list plane).
Hypothesis HW : 1 <= W.
Hypothesis HH : 1 <= H.
Hypothesis HF : 1 <= faces.
Hypothesis HB : 1 <= bpb.
Hypothesis HS : faces = 1 \/ H mod 2 = 0.
Hypothesis HP : W * bpb < 2 ^ 20.
Notation cc := (chunk_cols W).
Notation cr := (chunk_rows H).
Notation C := (chunk_no W H).
Notation place := (place_no W H).

Lemma chunk_loops_inv {S} m (Rel : Z -> S -> Prop) (body : bool -> bool -> Z -> S -> res S) st st' :
  last_chunk W H faces bpb + loop_reach m H bpb < 2 ^ 31 -> Rel 0 st ->
  (forall f x y st st', 0 <= f < faces -> 0 <= x < cc -> 0 <= y < cr -> Rel (C f x y) st ->
    body (negb (2 * x + 1 <? W)) (negb (2 * y + 1 <? H)) (row_dst W H bpb f y + 2 * x * bpb) st = Ok st' -> Rel (C f x y + 1) st') ->
  chunk_loops m bpb (W * bpb) W H cc cr faces body st = Ok st' -> Rel (num_chunks W H faces) st'.
Proof.
  intros HL R0 Step E. apply chunk_loops_safe in E.
  destruct (chunk_loops_ok W H faces bpb HW HH HF HB HS HP m (fun n => holds_if (Rel n)) (fun a b d => safe (body a b d)) (Some st) HL R0) as (o & E' & R).
  - intros f x y o Hf Hx Hy R. eapply safe_step; [exact R|]. intros s s' Rs Es. eapply Step; eauto.
  - rewrite E in E'. inversion E'; subst o. exact R.
Qed.
Lemma chunk_blocks_inv {S} m (Rel : Z -> S -> Prop) f x y (blk : bool -> Z -> Z -> S -> res S) st st' :
  bpb mod 4 = 0 -> faces * (2 * chunk_rows H) * bpb < 2 ^ 28 ->
  last_chunk W H faces bpb + block_reach m W H bpb < 2 ^ 31 ->
  0 <= f < faces -> 0 <= x < cc -> 0 <= y < cr -> Rel 0 st ->
  (forall k pd st st', 0 <= k < 4 -> Rel k st ->
    (inside W H x y k = true -> pd = (row_dst W H bpb f y + 2 * x * bpb + k / 2 * (W * bpb) + k mod 2 * bpb) / 4) ->
    blk (inside W H x y k) k pd st = Ok st' -> Rel (k + 1) st') ->
  chunk_blocks m bpb (W * bpb) (row_dst W H bpb f y + 2 * x * bpb) (negb (2 * x + 1 <? W)) (negb (2 * y + 1 <? H)) blk st = Ok st' -> Rel 4 st'.
Proof.
  intros B4 HFH HL Hf Hx Hy R0 Step E. apply chunk_blocks_safe in E.
  destruct (chunk_blocks_ok W H faces bpb HW HH HF HB HS HP B4 HFH m (fun n => holds_if (Rel n)) f x y (fun v k d => safe (blk v k d)) (Some st) HL Hf Hx Hy R0) as (o & E' & R).
  - intros k pd o Hk R Ep. eapply safe_step; [exact R|]. intros s s' Rs Es. eapply Step; eauto.
  - rewrite E in E'. inversion E'; subst o. exact R.
Qed.

(** The first [n] chunks are drawn. *)
Definition done (n : Z) (dst : list Z) : Prop :=
  zlen dst = faces * H * W * bpb /\
  forall n', 0 <= n' < n -> exists c, fits_palettes planes c /\
    forall q, 0 <= q < faces * H * W -> place q / 4 = n' -> cell bpb dst q = drawn planes c (place q mod 4).

(** Some block in cut [e] with the end points [ep]. *)
Definition block_with (e : Z) (ep : Z -> Z -> Z) (k : Z) (s : Z -> Z) : list Z :=
  flat_map (fun p => pl_block (plane_at planes p) (ep p (tile_of e k)) (s p)) (plane_nos planes).
Definition sel_ok (s : Z -> Z) : Prop := forall p, 0 <= p < zlen planes -> 0 <= s p < pl_sels (plane_at planes p).
(** In chunk [x], [y] of face [f], [k] blocks are drawn. *)
Definition within (e : Z) (ep : Z -> Z -> Z) (f x y k : Z) (dst0 dst : list Z) : Prop :=
  zlen dst = faces * H * W * bpb /\
  (forall q, 0 <= q < faces * H * W -> place q < 4 * C f x y -> cell bpb dst q = cell bpb dst0 q) /\
  forall k', 0 <= k' < k -> inside W H x y k' = true ->
    exists s, sel_ok s /\ cell bpb dst (block_no W H f x y k') = block_with e ep k' s.

Lemma within_start e ep f x y dst : zlen dst = faces * H * W * bpb -> within e ep f x y 0 dst dst.
Proof. intros L. split; [exact L|]. split; [reflexivity|]. intros k' Hk. lia. Qed.
Lemma within_hidden e ep f x y k dst0 dst : inside W H x y k = false -> within e ep f x y k dst0 dst -> within e ep f x y (k + 1) dst0 dst.
Proof.
  intros I (L & A & B). split; [exact L|]. split; [exact A|]. intros k' Hk I'. apply B; [|exact I'].
  destruct (Z.eq_dec k' k) as [->|]; [congruence|lia].
Qed.
Lemma within_visible e ep f x y k dst0 dst s b : 0 <= f < faces -> 0 <= x < cc -> 0 <= y < cr -> 0 <= k < 4 ->
  inside W H x y k = true -> within e ep f x y k dst0 dst -> sel_ok s -> b = block_with e ep k s -> zlen b = bpb ->
  within e ep f x y (k + 1) dst0 (put dst (block_no W H f x y k * bpb) b).
Proof.
  intros Hf Hx Hy Hk I (L & A & B) Hs Eb Lb.
  pose proof (block_no_range W H faces HW HH HF f x y k Hf ltac:(lia) ltac:(lia) Hk I) as BR.
  assert (block_no W H f x y k * bpb + bpb <= zlen dst) as Fit by (rewrite L; nia).
  pose proof (place_no_block W H f x y k ltac:(lia) ltac:(lia) ltac:(lia) Hk I) as PB.
  split; [rewrite zlen_put by nia; exact L|]. split.
  - intros q Hq P. rewrite cell_other; [apply A; assumption|lia|exact Lb|lia|lia|exact Fit|]. intros ->. lia.
  - intros k' Hk' I'. destruct (Z.eq_dec k' k) as [->|N].
    + exists s. split; [exact Hs|]. rewrite cell_same by (auto; lia). exact Eb.
    + destruct (B k' ltac:(lia) I') as (s' & Hs' & E'). exists s'. split; [exact Hs'|]. rewrite cell_other; [exact E'|lia|exact Lb|lia| |exact Fit|].
      * pose proof (block_no_range W H faces HW HH HF f x y k' Hf ltac:(lia) ltac:(lia) ltac:(lia) I'). lia.
      * intros Eq. pose proof (place_no_block W H f x y k' ltac:(lia) ltac:(lia) ltac:(lia) ltac:(lia) I') as PB'. rewrite Eq in PB'. lia.
Qed.

Lemma flat_map_ext_in {A B} (g h : A -> list B) l : (forall a, In a l -> g a = h a) -> flat_map g l = flat_map h l.
Proof. induction l as [|a l IH]; intros E; cbn [flat_map]; [reflexivity|]. rewrite (E a (or_introl eq_refl)), IH; [reflexivity|]. intros b I. apply E. right. exact I. Qed.

Lemma done_next e ep f x y dst0 dst : 0 <= f < faces -> 0 <= x < cc -> 0 <= y < cr -> 0 <= e < 8 ->
  (forall p t, 0 <= p < zlen planes -> 0 <= t < num_tiles e -> 0 <= ep p t < pl_ends (plane_at planes p)) ->
  done (C f x y) dst0 -> within e ep f x y 4 dst0 dst -> done (C f x y + 1) dst.
Proof.
  intros Hf Hx Hy He Hep (_ & D) (L & A & B). split; [exact L|]. intros n' Hn'.
  destruct (Z.eq_dec n' (C f x y)) as [->|N].
  - assert (inside W H x y 0 = true) as I0.
    { unfold inside. change (0 mod 2) with 0. change (0 / 2) with 0. pose proof (cols_bounds W HW). pose proof (rows_bounds H HH).
      apply andb_true_intro. split; apply Z.ltb_lt; lia. }
    destruct (B 0 ltac:(lia) I0) as (s0 & S0 & _).
    assert (forall k, 0 <= k < 4 -> exists s, sel_ok s /\ (inside W H x y k = true -> cell bpb dst (block_no W H f x y k) = block_with e ep k s)) as K.
    { intros k Hk. destruct (inside W H x y k) eqn:I; [destruct (B k Hk I) as (s & S & E); eauto|]. exists s0. split; [exact S0|discriminate]. }
    destruct (choice (fun _ => 0) _ _ K) as (s & S).
    exists (mkChunk e ep (fun p k => s k p)). split.
    + split; [exact He|]. cbn [ch_cut ch_end ch_sel]. intros p Hp. split; [auto|]. intros k Hk. apply (proj1 (S k Hk)). exact Hp.
    + intros q Hq Eq. pose proof (Z.div_mod (place q) 4 ltac:(lia)) as DM. pose proof (Z.mod_pos_bound (place q) 4 ltac:(lia)) as MB.
      destruct (place_no_inj W H faces HW HH q f x y (place q mod 4) Hq ltac:(lia) Hx Hy MB ltac:(lia)) as [I E].
      rewrite E at 1. rewrite (proj2 (S _ MB) I). unfold drawn, block_with. cbn [ch_cut ch_end ch_sel]. reflexivity.
  - destruct (D n' ltac:(lia)) as (c & Fc & E). exists c. split; [exact Fc|]. intros q Hq Eq. rewrite A; [apply E; assumption|exact Hq|].
    pose proof (Z.div_mod (place q) 4 ltac:(lia)) as DM. pose proof (Z.mod_pos_bound (place q) 4 ltac:(lia)) as MB. lia.
Qed.

Lemma done_picture dst : done (num_chunks W H faces) dst -> exists P, all_fit planes P W H faces /\ dst = chunk_picture planes P W H faces.
Proof.
  intros (L & D). destruct (choice (mkChunk 0 (fun _ _ => 0) (fun _ _ => 0)) _ _ D) as (g & G).
  exists (fun f x y => g (C f x y)). split.
  - intros f x y Hf Hx Hy. apply (G (C f x y)). apply chunk_no_range; assumption.
  - rewrite (cells_all bpb dst (faces * H * W)) at 1 by (try exact L; nia). unfold chunk_picture. apply flat_map_ext_in. intros q Iq.
    apply in_zrange in Iq. cbv zeta. pose proof (cols_bounds W HW) as CB. pose proof (rows_bounds H HH) as RB.
    pose proof (Z.div_mod q W ltac:(lia)) as Q1. pose proof (Z.mod_pos_bound q W ltac:(lia)) as Q2.
    pose proof (Z.div_pos q W ltac:(lia) ltac:(lia)) as Q3. pose proof (Z.div_pos (q / W) H ltac:(lia) ltac:(lia)) as Q4.
    assert (q / W < faces * H) as Q5 by (apply Z.div_lt_upper_bound; lia). assert (q / W / H < faces) as Q6 by (apply Z.div_lt_upper_bound; lia).
    pose proof (Z.mod_pos_bound (q / W) H ltac:(lia)) as R2.
    pose proof (Z.div_mod (q mod W) 2 ltac:(lia)) as X1. pose proof (Z.mod_pos_bound (q mod W) 2 ltac:(lia)) as X2.
    pose proof (Z.div_mod ((q / W) mod H) 2 ltac:(lia)) as Y1. pose proof (Z.mod_pos_bound ((q / W) mod H) 2 ltac:(lia)) as Y2.
    assert (place q / 4 = C (q / W / H) (q mod W / 2) ((q / W) mod H / 2) /\ place q mod 4 = (q mod W) mod 2 + 2 * (((q / W) mod H) mod 2)) as [E1 E2].
    { unfold place_no. split; [symmetry; apply Z.div_unique with ((q mod W) mod 2 + 2 * (((q / W) mod H) mod 2)); lia
                              |symmetry; apply Z.mod_unique with (C (q / W / H) (q mod W / 2) ((q / W) mod H / 2)); lia]. }
    rewrite <- E1, <- E2.
    assert (0 <= place q / 4 < num_chunks W H faces) as Rn by (rewrite E1; apply chunk_no_range; lia).
    apply (proj2 (G _ Rn)); auto.
Qed.
End Grid.
