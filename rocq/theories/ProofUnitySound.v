(** * Proofs about what any Unity crunch file whatever unpacks to. *)
From Verif Require Import Base BaseLemmas ModelCrn ModelCrunch ModelUnity SpecCrn SpecCrnLevel SpecCrnSound SpecUnity SpecUnityFile SpecUnitySound
  ProofHuff ProofCrnIndex ProofCrnGrid ProofCrnLevel ProofUnityGrid ProofUnityLevel ProofUnityEtc ProofAstcRange ProofLoops ProofCrnDecode ProofCrnSound ProofCrnSoundFmt.

(** ** Loops that succeed *)
Definition lifted3 {S} (s : bool * Z * S) : bool * Z * option S := (fst s, Some (snd s)).
Lemma unity_loops_safe {S} m words pitch ow oh faces (body : Z -> Z -> bool -> Z -> S -> res S) st st' :
  unity_loops m words pitch ow oh faces body st = Ok st' ->
  unity_loops m words pitch ow oh faces (fun y x v p => safe (body y x v p)) (Some st) = Ok (Some st').
Proof.
  unfold unity_loops. intros E. step E. rewrite E0. cbn [bind]. clear E0. step E. destruct a0 as [r s]. inversion E; subst s; clear E.
  match goal with |- bind ?e _ = _ => assert (e = Ok (lifted (r, st'))) as -> end.
  2: reflexivity.
  refine (for_list_sim lifted _ _ _ _ (0, st) _ E0). clear. intros _ s s' E. refine (for_list_sim lifted _ _ _ _ s _ E). clear.
  intros y [row s] s' E. unfold lifted at 1. cbn [fst snd]. step E. destruct a0 as [[v p] t].
  match goal with |- bind ?e _ = _ => assert (e = Ok (lifted3 (v, p, t))) as -> end.
  { refine (for_list_sim lifted3 _ _ _ _ (_, row, s) _ E0). clear. intros x [[v p] s] s' E. unfold lifted3 at 1. cbn [fst snd]. step E. rewrite (safe_ok _ _ _ E0). cbn [bind].
    step E. rewrite E1. cbn [bind]. inversion E. reflexivity. }
  unfold lifted3 at 1. cbn [bind fst snd]. step E. rewrite E1. cbn [bind]. inversion E. reflexivity.
Qed.

Section Grid.
Context (W H faces words : Z).
Hypothesis HW : 1 <= W.
Hypothesis HH : 1 <= H.
Hypothesis HF : 1 <= faces.
Hypothesis HB : 1 <= words.
Hypothesis HB4 : words <= 4.
Hypothesis HS : faces = 1 \/ H mod 2 = 0.
Hypothesis HZ : (faces * H + 2) * (W + 2) * (4 * words) <= 2 ^ 48.
Notation cols := (u_cols W).
Notation rows := (u_rows H).
Notation place := (u_place W H).
Notation bpb := (4 * words).
Notation number := (u_number W H).
Notation seen := (u_visible_no W H).

Lemma unity_loops_inv {S} m (Rel : Z -> S -> Prop) (body : Z -> Z -> bool -> Z -> S -> res S) st0 st' :
  m = Wrapping \/ W mod 2 = 0 -> Rel 0 st0 ->
  (forall f x y st st', 0 <= f < faces -> 0 <= x < cols -> 0 <= y < rows -> Rel (place f x y) st ->
    body y x ((y <? H) && (x <? W)) (seen f x y * words) st = Ok st' -> Rel (place f x y + 1) st') ->
  unity_loops m words (W * bpb) W H faces body st0 = Ok st' -> Rel (u_blocks W H faces) st'.
Proof.
  intros HM R0 Step E. apply unity_loops_safe in E.
  destruct (unity_loops_ok W H faces words HW HH HF HB HS HZ HB4 m (fun n => holds_if (Rel n)) (fun y x v p => safe (body y x v p)) (Some st0) HM R0) as (o & E' & R).
  - intros f x y o Hf Hx Hy R. apply (safe_step (Rel (place f x y)) (Rel (place f x y + 1)) _ o R). intros s s'. apply Step; assumption.
  - rewrite E in E'. assert (o = Some st') as -> by congruence. exact R.
Qed.

(** The visible blocks among the first [n] ones can be drawn. *)
Context (draws : list Z -> Prop).
Definition u_done (n : Z) (dst : list Z) : Prop :=
  zlen dst = faces * H * W * bpb /\
  forall q, 0 <= q < faces * H * W -> number q < n -> draws (cell bpb dst q).

Lemma u_done_start dst : zlen dst = faces * H * W * bpb -> u_done 0 dst.
Proof. intros L. split; [exact L|]. intros q Hq P. exfalso. pose proof (u_number_range W H faces HW HH q Hq). lia. Qed.
Lemma u_done_hidden f x y dst : 0 <= f < faces -> 0 <= x < cols -> 0 <= y < rows -> (y <? H) && (x <? W) = false ->
  u_done (place f x y) dst -> u_done (place f x y + 1) dst.
Proof.
  intros Hf Hx Hy I [L F]. split; [exact L|]. intros q Hq P. apply F; [exact Hq|].
  destruct (Z.eq_dec (number q) (place f x y)) as [E2|]; [|lia].
  destruct (u_number_inj W H faces HW HH q f x y Hq ltac:(lia) Hx Hy E2) as (E3 & E4 & _).
  apply andb_false_iff in I. destruct I as [I|I]; apply Z.ltb_ge in I; lia.
Qed.
Lemma u_done_visible f x y dst b : 0 <= f < faces -> 0 <= x < cols -> 0 <= y < rows -> (y <? H) && (x <? W) = true ->
  u_done (place f x y) dst -> zlen b = bpb -> draws b -> u_done (place f x y + 1) (put dst (seen f x y * bpb) b).
Proof.
  intros Hf Hx Hy V [L F] Lb Db. destruct (visible_split W H x y V) as [Vx Vy].
  pose proof (u_visible_range W H faces HW HH f x y Hf ltac:(lia) ltac:(lia)) as R.
  assert (seen f x y * bpb + bpb <= zlen dst) as Fit by (rewrite L; nia).
  split; [rewrite zlen_put by nia; exact L|]. intros q Hq P. destruct (Z.eq_dec q (seen f x y)) as [->|N].
  - rewrite cell_same by (auto; lia). exact Db.
  - rewrite cell_other; [|lia|exact Lb|lia|lia|exact Fit|exact N]. apply F; [exact Hq|].
    destruct (Z.eq_dec (number q) (place f x y)) as [E2|]; [|lia].
    destruct (u_number_inj W H faces HW HH q f x y Hq ltac:(lia) Hx Hy E2) as (_ & _ & E3). contradiction.
Qed.
Lemma u_done_end dst : u_done (u_blocks W H faces) dst ->
  exists block, (forall q, 0 <= q < faces * H * W -> draws (block q)) /\ dst = flat_map block (zrange 0 (faces * H * W)).
Proof.
  intros [L F]. exists (cell bpb dst). split.
  - intros q Hq. apply F; [exact Hq|]. apply (u_number_range W H faces HW HH q Hq).
  - apply cells_all; [lia|nia|exact L].
Qed.
End Grid.

(** ** The formats *)
Section Formats.
Context (m : build) (u : unpacker) (W H faces : Z).
Hypothesis HW : 1 <= W.
Hypothesis HH : 1 <= H.
Hypothesis HF : 1 <= faces.
Hypothesis HS : faces = 1 \/ H mod 2 = 0.
Hypothesis HM : m = Wrapping \/ W mod 2 = 0.
Hypothesis HZ : (faces * H + 2) * (W + 2) * (4 * 4) <= 2 ^ 48.
Notation cols := (u_cols W).
Notation rows := (u_rows H).
Notation place := (u_place W H).
Notation seen := (u_visible_no W H).
Notation AE := (u_alpha_endpoints u).
Notation AS := (u_alpha_selectors u).
Notation CE := (u_color_endpoints u).
Notation CS := (u_color_selectors u).
Notation ap := (alpha_plane AE AS).
Notation cp := (color_plane CE CS).

Lemma unity_alpha_words_inv k w : unity_alpha_words u k = Ok w ->
  0 <= k /\ k + 3 <= zlen AS /\ w = (znth AS k, znth AS (k + 1), znth AS (k + 2)).
Proof.
  unfold unity_alpha_words. intros E. step E. pose proof (from_inv _ _ _ E0) as R. rewrite slice_from_ok in E0 by lia. apply ok_inj in E0. subst a. step E. step E. step E.
  apply idx_inv in E0 as [R0 ->]. apply idx_inv in E1 as [R1 ->]. apply idx_inv in E2 as [R2 ->].
  rewrite zlen_skipn in R2. rewrite !znth_skipn in E by lia. apply ok_inj in E. subst w. split; [lia|]. split; [lia|].
  rewrite !Z2Nat.id, Z.add_0_r by lia. reflexivity.
Qed.
Lemma small_room : (faces * H + 2) * (W + 2) * (4 * 2) <= 2 ^ 48.
Proof. assert (0 <= (faces * H + 2) * (W + 2)) by nia. lia. Qed.
Lemma room_pos words f x y (dst : list Z) : 1 <= words <= 4 -> 0 <= f < faces -> 0 <= x < W -> 0 <= y < H -> zlen dst = faces * H * W * (4 * words) ->
  0 <= seen f x y * words /\ 4 * (seen f x y * words) + 4 * words <= zlen dst /\ zlen dst < 2 ^ 63.
Proof.
  intros Hw Hf Hx Hy L. pose proof (u_visible_range W H faces HW HH f x y Hf Hx Hy) as R. rewrite L. split; [nia|]. split; [nia|].
  assert (0 <= faces * H * W) by nia. assert (faces * H * W <= (faces * H + 2) * (W + 2)) by nia. nia.
Qed.
Lemma third_inv s l : 0 <= s * 3 -> s * 3 + 3 <= l -> 0 <= s < l / 3.
Proof. intros H1 H2. split; [lia|]. apply Z.le_succ_l, Z.div_le_lower_bound; lia. Qed.

(** *** DXT1 *)
Lemma u_dxt1_block_inv f x y st st' : 0 <= f < faces -> 0 <= x < cols -> 0 <= y < rows ->
  u_done W H faces 2 (plain_block [cp]) (place f x y) (snd st) ->
  unity_dxt1_block m u y x ((y <? H) && (x <? W)) (seen f x y * 2) st = Ok st' -> u_done W H faces 2 (plain_block [cp]) (place f x y + 1) (snd st').
Proof.
  intros Hf Hx Hy. destruct st as [[[[ce g] buf] cd] dst]. cbn [snd]. intros D E. unfold unity_dxt1_block in E. cbv zeta in E.
  step E. destruct a as [[[r g'] b] cd1]. step E. destruct a as [[ce' b'] cd2]. step E. rename a into buf'. step E. destruct a as [s cd3].
  destruct ((y <? H) && (x <? W)) eqn:V.
  2: { apply ok_inj in E. subst st'. cbn [snd]. apply u_done_hidden; auto; lia. }
  destruct (visible_split W H x y V) as [Vx Vy]. destruct (room_pos 2 f x y dst ltac:(lia) Hf ltac:(lia) ltac:(lia) (proj1 D)) as (P1 & P2 & P3).
  step E. apply idx_inv in E4 as [R1 ->]. step E. rewrite write_int_ok in E4 by lia. apply ok_inj in E4. subst a.
  step E. apply idx_inv in E4 as [R2 ->]. step E.
  rewrite (put_more m dst (4 * (seen f x y * 2)) (le 4 (znth CE ce')) _ (seen f x y * 2 + 1) (znth CS s)) in E4 by (rewrite ?zlen_le; try lia; reflexivity).
  apply ok_inj in E4. subst a. apply ok_inj in E. subst st'. cbn [snd]. replace (4 * (seen f x y * 2)) with (seen f x y * (4 * 2)) by ring.
  apply u_done_visible; try assumption; try lia; try solve [rewrite zlen_app, !zlen_le by lia; reflexivity].
  exists (fun _ => ce'), (fun _ => s). split.
  - intros p Hp. cbn in Hp. assert (p = 0) as -> by lia. split; [exact R1|exact R2].
  - change (plane_nos [cp]) with [0]. cbn [flat_map]. rewrite app_nil_r. reflexivity.
Qed.
Lemma unity_dxt1_inv cd dst out : h_faces (u_header u) = faces -> zlen dst = faces * H * W * 8 ->
  unity_unpack_dxt1 m u cd dst (W * 8) W H = Ok out ->
  exists block, (forall q, 0 <= q < faces * H * W -> plain_block [cp] (block q)) /\ out = flat_map block (zrange 0 (faces * H * W)).
Proof.
  intros Ef L E. unfold unity_unpack_dxt1 in E. cbv zeta in E. rewrite Ef in E. step E. destruct a as [s dst']. apply ok_inj in E. subst dst'.
  change (W * 8) with (W * (4 * 2)) in E0.
  apply (unity_loops_inv W H faces 2 HW HH HF ltac:(lia) ltac:(lia) HS small_room m (fun n st => u_done W H faces 2 (plain_block [cp]) n (snd st))) in E0; auto.
  - apply (u_done_end W H faces 2 HW HH HF ltac:(lia) (plain_block [cp]) out E0).
  - apply u_done_start; auto; lia.
  - intros f x y st st'. apply u_dxt1_block_inv.
Qed.

(** *** DXT5A *)
Hypothesis HAE : ProofCrnLevel.words AE.
Hypothesis HAS : ProofCrnLevel.words AS.
Lemma u_dxt5a_block_inv f x y st st' : 0 <= f < faces -> 0 <= x < cols -> 0 <= y < rows ->
  u_done W H faces 2 (plain_block [ap]) (place f x y) (snd st) ->
  unity_dxt5a_block m u y x ((y <? H) && (x <? W)) (seen f x y * 2) st = Ok st' -> u_done W H faces 2 (plain_block [ap]) (place f x y + 1) (snd st').
Proof.
  intros Hf Hx Hy. destruct st as [[[[ae g] buf] cd] dst]. cbn [snd]. intros D E. unfold unity_dxt5a_block in E. cbv zeta in E.
  step E. destruct a as [[[r g'] b] cd1]. step E. destruct a as [[ae' b'] cd2]. step E. rename a into buf'. step E. destruct a as [s cd3].
  destruct ((y <? H) && (x <? W)) eqn:V.
  2: { apply ok_inj in E. subst st'. cbn [snd]. apply u_done_hidden; auto; lia. }
  destruct (visible_split W H x y V) as [Vx Vy]. destruct (room_pos 2 f x y dst ltac:(lia) Hf ltac:(lia) ltac:(lia) (proj1 D)) as (P1 & P2 & P3).
  step E. destruct (unity_alpha_words_inv _ _ E4) as (S1 & S2 & ->). clear E4. step E. apply idx_inv in E4 as [R1 ->]. step E.
  rewrite write_alpha_ok in E4 by (try apply words_znth; auto; lia). apply ok_inj in E4. subst a. apply ok_inj in E. subst st'. cbn [snd].
  replace (4 * (seen f x y * 2)) with (seen f x y * (4 * 2)) by ring.
  apply u_done_visible; try assumption; try lia; try solve [rewrite !zlen_app, !zlen_le by lia; reflexivity].
  exists (fun _ => ae'), (fun _ => s). split.
  - intros p Hp. cbn in Hp. assert (p = 0) as -> by lia. split; [exact R1|apply third_inv; assumption].
  - change (plane_nos [ap]) with [0]. cbn [flat_map]. rewrite app_nil_r. change (plane_at [ap] 0) with ap. cbn [alpha_plane pl_block]. rewrite (Z.mul_comm s 3). reflexivity.
Qed.
Lemma unity_dxt5a_inv cd dst out : h_faces (u_header u) = faces -> zlen dst = faces * H * W * 8 ->
  unity_unpack_dxt5a m u cd dst (W * 8) W H = Ok out ->
  exists block, (forall q, 0 <= q < faces * H * W -> plain_block [ap] (block q)) /\ out = flat_map block (zrange 0 (faces * H * W)).
Proof.
  intros Ef L E. unfold unity_unpack_dxt5a in E. cbv zeta in E. rewrite Ef in E. step E. destruct a as [s dst']. apply ok_inj in E. subst dst'.
  change (W * 8) with (W * (4 * 2)) in E0.
  apply (unity_loops_inv W H faces 2 HW HH HF ltac:(lia) ltac:(lia) HS small_room m (fun n st => u_done W H faces 2 (plain_block [ap]) n (snd st))) in E0; auto.
  - apply (u_done_end W H faces 2 HW HH HF ltac:(lia) (plain_block [ap]) out E0).
  - apply u_done_start; auto; lia.
  - intros f x y st st'. apply u_dxt5a_block_inv.
Qed.

(** *** DXT5 *)
Lemma u_dxt5_block_inv f x y st st' : 0 <= f < faces -> 0 <= x < cols -> 0 <= y < rows ->
  u_done W H faces 4 (plain_block [ap; cp]) (place f x y) (snd st) ->
  unity_dxt5_block m u y x ((y <? H) && (x <? W)) (seen f x y * 4) st = Ok st' -> u_done W H faces 4 (plain_block [ap; cp]) (place f x y + 1) (snd st').
Proof.
  intros Hf Hx Hy. destruct st as [[[[[ce ae] g] buf] cd] dst]. cbn [snd]. intros D E. unfold unity_dxt5_block in E. cbv zeta in E.
  step E. destruct a as [[[r g'] b] cd1]. step E. destruct a as [[[ce' ae'] b'] cd2]. step E. rename a into buf'. step E. destruct a as [s cd3]. step E. destruct a as [t cd4].
  destruct ((y <? H) && (x <? W)) eqn:V.
  2: { apply ok_inj in E. subst st'. cbn [snd]. apply u_done_hidden; auto; lia. }
  destruct (visible_split W H x y V) as [Vx Vy]. destruct (room_pos 4 f x y dst ltac:(lia) Hf ltac:(lia) ltac:(lia) (proj1 D)) as (P1 & P2 & P3).
  step E. destruct (unity_alpha_words_inv _ _ E5) as (S1 & S2 & ->). clear E5. step E. apply idx_inv in E5 as [R1 ->]. step E.
  rewrite write_alpha_ok in E5 by (try apply words_znth; auto; lia). apply ok_inj in E5. subst a.
  match type of E with context [put dst _ ?w] => set (wa := w) in E end.
  assert (zlen wa = 8) as La by (unfold wa; rewrite !zlen_app, !zlen_le by lia; reflexivity).
  step E. apply idx_inv in E5 as [R2 ->]. step E.
  rewrite (put_more m dst (4 * (seen f x y * 4)) wa _ (seen f x y * 4 + 2) (znth CE ce')) in E5 by (try lia; reflexivity). apply ok_inj in E5. subst a.
  step E. apply idx_inv in E5 as [R3 ->]. step E.
  rewrite (put_more m dst (4 * (seen f x y * 4)) (wa ++ le 4 (znth CE ce')) _ (seen f x y * 4 + 3) (znth CS s)) in E5 by (rewrite ?zlen_app, ?zlen_le by lia; try lia; reflexivity).
  apply ok_inj in E5. subst a. apply ok_inj in E. subst st'. cbn [snd]. replace (4 * (seen f x y * 4)) with (seen f x y * (4 * 4)) by ring.
  apply u_done_visible; try assumption; try lia; try solve [rewrite !zlen_app, !zlen_le by lia; lia].
  exists (fun p => if p =? 0 then ae' else ce'), (fun p => if p =? 0 then t else s). split.
  - intros p Hp. cbn in Hp. assert (p = 0 \/ p = 1) as [-> | ->] by lia; (split; [assumption|]); [apply third_inv; assumption|assumption].
  - change (plane_nos [ap; cp]) with [0; 1]. cbn [flat_map]. rewrite app_nil_r. change (plane_at [ap; cp] 0) with ap. change (plane_at [ap; cp] 1) with cp.
    cbn [alpha_plane color_plane pl_block Z.eqb]. unfold wa. rewrite (Z.mul_comm t 3). rewrite <- !app_assoc. reflexivity.
Qed.
Lemma unity_dxt5_inv cd dst out : h_faces (u_header u) = faces -> zlen dst = faces * H * W * 16 ->
  unity_unpack_dxt5 m u cd dst (W * 16) W H = Ok out ->
  exists block, (forall q, 0 <= q < faces * H * W -> plain_block [ap; cp] (block q)) /\ out = flat_map block (zrange 0 (faces * H * W)).
Proof.
  intros Ef L E. unfold unity_unpack_dxt5 in E. cbv zeta in E. rewrite Ef in E. step E. destruct a as [s dst']. apply ok_inj in E. subst dst'.
  change (W * 16) with (W * (4 * 4)) in E0.
  apply (unity_loops_inv W H faces 4 HW HH HF ltac:(lia) ltac:(lia) HS HZ m (fun n st => u_done W H faces 4 (plain_block [ap; cp]) n (snd st))) in E0; auto.
  - apply (u_done_end W H faces 4 HW HH HF ltac:(lia) (plain_block [ap; cp]) out E0).
  - apply u_done_start; auto; lia.
  - intros f x y st st'. apply u_dxt5_block_inv.
Qed.

(** *** DXN *)
Lemma u_dxn_block_inv f x y st st' : 0 <= f < faces -> 0 <= x < cols -> 0 <= y < rows ->
  u_done W H faces 4 (plain_block [ap; ap]) (place f x y) (snd st) ->
  unity_dxn_block m u y x ((y <? H) && (x <? W)) (seen f x y * 4) st = Ok st' -> u_done W H faces 4 (plain_block [ap; ap]) (place f x y + 1) (snd st').
Proof.
  intros Hf Hx Hy. destruct st as [[[[[a0 a1] g] buf] cd] dst]. cbn [snd]. intros D E. unfold unity_dxn_block in E. cbv zeta in E.
  step E. destruct a as [[[r g'] b] cd1]. step E. destruct a as [[[a0' a1'] b'] cd2]. step E. rename a into buf'. step E. destruct a as [s cd3]. step E. destruct a as [t cd4].
  destruct ((y <? H) && (x <? W)) eqn:V.
  2: { apply ok_inj in E. subst st'. cbn [snd]. apply u_done_hidden; auto; lia. }
  destruct (visible_split W H x y V) as [Vx Vy]. destruct (room_pos 4 f x y dst ltac:(lia) Hf ltac:(lia) ltac:(lia) (proj1 D)) as (P1 & P2 & P3).
  step E. destruct (unity_alpha_words_inv _ _ E5) as (S1 & S2 & ->). clear E5. step E. destruct (unity_alpha_words_inv _ _ E5) as (S3 & S4 & ->). clear E5.
  step E. apply idx_inv in E5 as [R1 ->]. step E.
  rewrite write_alpha_ok in E5 by (try apply words_znth; auto; lia). apply ok_inj in E5. subst a.
  match type of E with context [put dst _ ?w] => set (wa := w) in E end.
  assert (zlen wa = 8) as La by (unfold wa; rewrite !zlen_app, !zlen_le by lia; reflexivity).
  step E. apply idx_inv in E5 as [R2 ->]. step E.
  rewrite write_alpha_ok in E5 by (try apply words_znth; auto; rewrite ?zlen_put by lia; lia). apply ok_inj in E5. subst a.
  replace (4 * (seen f x y * 4 + 2)) with (4 * (seen f x y * 4) + zlen wa) in E by lia.
  match type of E with context [put (put dst _ wa) _ ?w] => set (wb := w) in E end.
  assert (zlen wb = 8) as Lb by (unfold wb; rewrite !zlen_app, !zlen_le by lia; reflexivity).
  rewrite put_put in E by lia.
  apply ok_inj in E. subst st'. cbn [snd]. replace (4 * (seen f x y * 4)) with (seen f x y * (4 * 4)) by ring.
  apply u_done_visible; try assumption; try lia; try solve [rewrite !zlen_app; lia].
  exists (fun p => if p =? 0 then a0' else a1'), (fun p => if p =? 0 then s else t). split.
  - intros p Hp. cbn in Hp. assert (p = 0 \/ p = 1) as [-> | ->] by lia; (split; [assumption|]); apply third_inv; assumption.
  - change (plane_nos [ap; ap]) with [0; 1]. cbn [flat_map]. rewrite app_nil_r. change (plane_at [ap; ap] 0) with ap. change (plane_at [ap; ap] 1) with ap.
    cbn [alpha_plane color_plane pl_block Z.eqb]. unfold wa, wb. rewrite (Z.mul_comm t 3), (Z.mul_comm s 3). rewrite <- !app_assoc. reflexivity.
Qed.
Lemma unity_dxn_inv cd dst out : h_faces (u_header u) = faces -> zlen dst = faces * H * W * 16 ->
  unity_unpack_dxn m u cd dst (W * 16) W H = Ok out ->
  exists block, (forall q, 0 <= q < faces * H * W -> plain_block [ap; ap] (block q)) /\ out = flat_map block (zrange 0 (faces * H * W)).
Proof.
  intros Ef L E. unfold unity_unpack_dxn in E. cbv zeta in E. rewrite Ef in E. step E. destruct a as [s dst']. apply ok_inj in E. subst dst'.
  change (W * 16) with (W * (4 * 4)) in E0.
  apply (unity_loops_inv W H faces 4 HW HH HF ltac:(lia) ltac:(lia) HS HZ m (fun n st => u_done W H faces 4 (plain_block [ap; ap]) n (snd st))) in E0; auto.
  - apply (u_done_end W H faces 4 HW HH HF ltac:(lia) (plain_block [ap; ap]) out E0).
  - apply u_done_start; auto; lia.
  - intros f x y st st'. apply u_dxn_block_inv.
Qed.
End Formats.

(** ** Blocks with two halves *)
Lemma loose_byte_table : all_below 32 (fun a => all_below 32 (fun b => all_below 2 (fun d => all_below 2 (fun f =>
  Z.lor (Z.lor (Z.lor (u8 (Z.shiftl a 5)) (u8 (Z.shiftl b 2))) (Z.shiftl d 1)) f =? Z.lor (a mod 8 * 32) (b * 4) + 2 * d + f)))) = true.
Proof. vm_compute. reflexivity. Qed.
Lemma loose_byte a b (d : bool) f : 0 <= a < 32 -> 0 <= b < 32 -> 0 <= f < 2 ->
  Z.lor (Z.lor (Z.lor (u8 (Z.shiftl a 5)) (u8 (Z.shiftl b 2))) (Z.shiftl (if d then 1 else 0) 1)) f = Z.lor (a mod 8 * 32) (b * 4) + (if d then 2 else 0) + f.
Proof.
  intros Ha Hb Hf. pose proof loose_byte_table as T.
  pose proof (all_below_spec _ _ T a Ha) as T1. cbv beta in T1. pose proof (all_below_spec _ _ T1 b Hb) as T2. cbv beta in T2.
  pose proof (all_below_spec _ _ T2 (if d then 1 else 0) ltac:(destruct d; lia)) as T3. cbv beta in T3.
  pose proof (all_below_spec _ _ T3 f Hf) as T4. cbv beta in T4. apply Z.eqb_eq in T4. rewrite T4. destruct d; lia.
Qed.
Lemma loose_head_ok m a b flip : five_bits a -> five_bits b -> 0 <= flip < 2 ->
  etc_block_endpoint m (le4 a) (le4 b) flip = Ok (loose_head a b flip) /\ zlen (loose_head a b flip) = 4.
Proof.
  intros [_ FA] [_ FB] Hf. split; [|reflexivity]. unfold etc_block_endpoint. rewrite !le4_bytes.
  assert (forall v c, 0 <= color_byte v c) as P by (intros; apply Z.mod_pos_bound; lia).
  pose proof (FA 0 ltac:(lia)). pose proof (FA 1 ltac:(lia)). pose proof (FA 2 ltac:(lia)). pose proof (FA 3 ltac:(lia)).
  pose proof (FB 0 ltac:(lia)). pose proof (FB 1 ltac:(lia)). pose proof (FB 2 ltac:(lia)). pose proof (FB 3 ltac:(lia)).
  unfold loose_head. set (a0 := color_byte a 0) in *. set (a1 := color_byte a 1) in *. set (a2 := color_byte a 2) in *. set (a3 := color_byte a 3) in *.
  set (b0 := color_byte b 0) in *. set (b1 := color_byte b 1) in *. set (b2 := color_byte b 2) in *. set (b3 := color_byte b 3) in *.
  assert (0 <= a0) by apply P. assert (0 <= a1) by apply P. assert (0 <= a2) by apply P. assert (0 <= a3) by apply P.
  assert (0 <= b0) by apply P. assert (0 <= b1) by apply P. assert (0 <= b2) by apply P. assert (0 <= b3) by apply P.
  rewrite etc_diff_ok by lia. cbn [bind]. unfold close. fold a0 a1 a2 b0 b1 b2. cbv zeta. set (df := (_ && _) && _ && _).
  unfold for_range. change (zrange 0 3) with [0; 1; 2]. cbn [for_list].
  change (idx [a0; a1; a2; a3] 0) with (Ok a0). change (idx [b0; b1; b2; b3] 0) with (Ok b0). cbn [bind].
  change (idx [a0; a1; a2; a3] 1) with (Ok a1). change (idx [b0; b1; b2; b3] 1) with (Ok b1). cbn [bind].
  change (idx [a0; a1; a2; a3] 2) with (Ok a2). change (idx [b0; b1; b2; b3] 2) with (Ok b2). cbn [bind].
  change (idx [a0; a1; a2; a3] 3) with (Ok a3). change (idx [b0; b1; b2; b3] 3) with (Ok b3). cbn [bind].
  rewrite loose_byte by lia. rewrite !diff_byte by lia. rewrite !half_byte by lia. reflexivity.
Qed.
(** With modifier tables of three bits this is the head of the format. *)
Lemma loose_head_strict a b flip : five_bits a -> five_bits b -> color_byte a 3 < 8 -> color_byte b 3 < 8 -> loose_head a b flip = etc_head a b flip.
Proof.
  intros _ _ HA HB. assert (forall v c, 0 <= color_byte v c) as P by (intros; apply Z.mod_pos_bound; lia).
  pose proof (P a 3). pose proof (P b 3). unfold loose_head, etc_head. cbv zeta. rewrite (Z.mod_small (color_byte a 3) 8) by lia.
  change 32 with (2 ^ 5). rewrite lor_add by lia. reflexivity.
Qed.

Definition refs_ok (buf : list elem) : Prop := Forall (fun b => 0 <= b_ref b < 16) buf.
Lemma nibble_table : all_below 256 (fun g =>
  (0 <=? Z.lor (Z.land g 3) (Z.land (Z.shiftr g 2) 12)) && (Z.lor (Z.land g 3) (Z.land (Z.shiftr g 2) 12) <? 16) &&
  ((0 <=? Z.lor (Z.land (Z.shiftr g 2) 3) (Z.land (Z.shiftr g 4) 12)) && (Z.lor (Z.land (Z.shiftr g 2) 3) (Z.land (Z.shiftr g 4) 12) <? 16))) = true.
Proof. vm_compute. reflexivity. Qed.
Lemma etc_reference_inv m msg u y b cd r b' cd' : 0 <= b_ref b < 16 -> unity_etc_reference m msg u y b cd = Ok (r, b', cd') ->
  0 <= r < 16 /\ 0 <= b_ref b' < 16.
Proof.
  intros Hb. unfold unity_etc_reference. destruct (Z.land y 1 =? 1).
  - intros E. assert (r = u8 (b_ref b) /\ b' = b) as [-> ->] by (split; congruence). unfold u8. rewrite Z.mod_small by lia. auto.
  - intros E. step E. destruct a as [s cd1]. cbv zeta in E.
    assert (r = Z.lor (Z.land (u8 s) 3) (Z.land (Z.shiftr (u8 s) 2) 12) /\ b' = set_ref b (Z.lor (Z.land (Z.shiftr (u8 s) 2) 3) (Z.land (Z.shiftr (u8 s) 4) 12))) as [-> ->] by (split; congruence).
    cbn [set_ref b_ref]. assert (0 <= u8 s < 256) as R by (unfold u8; apply Z.mod_pos_bound; lia).
    pose proof (all_below_spec _ _ nibble_table (u8 s) R) as T. cbv beta in T. lia.
Qed.
Lemma flip_ok r : 0 <= r < 16 -> 0 <= Z.lxor (Z.shiftr (Z.shiftr r 2) 1) 1 < 2.
Proof.
  intros Hr. assert (all_below 16 (fun r => (0 <=? Z.lxor (Z.shiftr (Z.shiftr r 2) 1) 1) && (Z.lxor (Z.shiftr (Z.shiftr r 2) 1) 1 <? 2)) = true) as T by (vm_compute; reflexivity).
  pose proof (all_below_spec _ _ T r Hr) as T1. cbv beta in T1. lia.
Qed.
Lemma refs_at (buf : list elem) k b : refs_ok buf -> idx buf k = Ok b -> 0 <= b_ref b < 16.
Proof. intros Hb E. unfold refs_ok in Hb. rewrite Forall_forall in Hb. apply Hb. unfold idx in E.
  destruct (0 <=? k); [|discriminate]. destruct (nth_error buf (Z.to_nat k)) eqn:N; [|discriminate]. apply ok_inj in E. subst b. exact (nth_error_In _ _ N).
Qed.
Lemma refs_upd (buf buf' : list elem) k b : refs_ok buf -> 0 <= b_ref b < 16 -> upd buf k b = Ok buf' -> refs_ok buf'.
Proof. intros Hb Hr E. exact (upd_forall _ _ _ _ _ Hb Hr E). Qed.
Lemma lor_flip s flip : 0 <= flip < 2 -> Z.lor (Z.shiftl s 1) flip = 2 * s + flip.
Proof. intros Hf. rewrite shl_mul by lia. change (2 ^ 1) with (2 ^ 1). rewrite lor_add by lia. lia. Qed.

Section Halves.
Context (m : build) (u : unpacker) (W H faces : Z).
Hypothesis HW : 1 <= W.
Hypothesis HH : 1 <= H.
Hypothesis HF : 1 <= faces.
Hypothesis HS : faces = 1 \/ H mod 2 = 0.
Hypothesis HM : m = Wrapping \/ W mod 2 = 0.
Hypothesis HZ : (faces * H + 2) * (W + 2) * (4 * 4) <= 2 ^ 48.
Notation cols := (u_cols W).
Notation rows := (u_rows H).
Notation place := (u_place W H).
Notation seen := (u_visible_no W H).
Notation AE := (u_alpha_endpoints u).
Notation AS := (u_alpha_selectors u).
Notation CE := (u_color_endpoints u).
Notation CS := (u_color_selectors u).
Hypothesis HCE : Forall five_bits CE.
Hypothesis HCS : exists n, zlen CS = 2 * n.

Lemma five_at i v : idx CE i = Ok v -> 0 <= i < zlen CE /\ v = znth CE i /\ five_bits v.
Proof.
  intros E. destruct (idx_inv _ _ _ E) as [R ->]. split; [exact R|]. split; [reflexivity|]. rewrite Forall_forall in HCE. apply HCE.
  unfold znth. apply nth_In. unfold zlen in R. lia.
Qed.
Lemma even_room s flip : 0 <= flip < 2 -> 0 <= 2 * s + flip < zlen CS -> 0 <= s /\ 2 * s + 1 < zlen CS.
Proof. intros Hf Hs. destruct HCS as [n En]. lia. Qed.

(** *** ETC1 *)
Notation draw1 := (halves_block false CE CS AE AS).
Definition etc1_inv (n : Z) (st : Z * Z * list elem * codec * list Z) : Prop :=
  u_done W H faces 2 draw1 n (snd st) /\ refs_ok (snd (fst (fst st))).
Lemma u_etc1_block_inv f x y st st' : 0 <= f < faces -> 0 <= x < cols -> 0 <= y < rows -> etc1_inv (place f x y) st ->
  unity_etc1_block m u y x ((y <? H) && (x <? W)) (seen f x y * 2) st = Ok st' -> etc1_inv (place f x y + 1) st'.
Proof.
  intros Hf Hx Hy. destruct st as [[[[ce g] buf] cd] dst]. unfold etc1_inv. cbn [fst snd]. intros [D B] E. unfold unity_etc1_block in E. cbv zeta in E.
  step E. rename a into b. step E. destruct a as [[r b1] cd1]. destruct (etc_reference_inv _ _ _ _ _ _ _ _ _ (refs_at _ _ _ B E0) E1) as [Rr Rb].
  step E. destruct a as [[ce1 b2] cd2].
  assert (b_ref b2 = b_ref b1) as Eb.
  { clear E. repeat match type of E2 with (if ?c then _ else _) = _ => destruct c end.
    - step E2. destruct a as [c' cd']. assert (b2 = set_color b1 (u16 c')) as -> by congruence. reflexivity.
    - assert (b2 = set_color b1 (u16 ce)) as -> by congruence. reflexivity.
    - assert (b2 = set_color b1 (u16 g)) as -> by congruence. reflexivity.
    - congruence. }
  step E. rename a into buf1. assert (refs_ok buf1) as B1 by (eapply refs_upd; [exact B| |exact E3]; lia).
  step E. rename a into v0. destruct (five_at _ _ E4) as (R0 & V0 & F0). step E. destruct a as [s cd3]. step E. destruct a as [ce2 cd4].
  step E. rename a into b3. step E. rename a into buf2.
  assert (refs_ok buf2) as B2 by (eapply refs_upd; [exact B1| |exact E8]; cbn [set_color b_ref]; exact (refs_at _ _ _ B1 E7)).
  step E. rename a into v1. destruct (five_at _ _ E9) as (R1 & V1 & F1).
  destruct ((y <? H) && (x <? W)) eqn:V.
  2: { apply ok_inj in E. subst st'. cbn [fst snd]. split; [apply u_done_hidden; auto; lia|exact B2]. }
  destruct (visible_split W H x y V) as [Vx Vy]. destruct (room_pos W H faces HW HH HF HZ 2 f x y dst ltac:(lia) Hf ltac:(lia) ltac:(lia) (proj1 D)) as (P1 & P2 & P3).
  pose proof (flip_ok r Rr) as Hp. set (flip := Z.lxor (Z.shiftr (Z.shiftr r 2) 1) 1) in *.
  step E. destruct (loose_head_ok m v0 v1 flip F0 F1 Hp) as [EH LH]. rewrite EH in E10. apply ok_inj in E10. subst a. clear EH.
  step E. rewrite write_bytes4_ok in E10 by lia. apply ok_inj in E10. subst a. step E. rewrite lor_flip in E10 by lia. apply idx_inv in E10 as [R2 ->].
  step E. rewrite (put_more m dst (4 * (seen f x y * 2)) (loose_head v0 v1 flip) _ (seen f x y * 2 + 1) (znth CS (2 * s + flip))) in E10 by (try lia; reflexivity).
  apply ok_inj in E10. subst a. apply ok_inj in E. subst st'. cbn [fst snd]. split; [|exact B2]. replace (4 * (seen f x y * 2)) with (seen f x y * (4 * 2)) by ring.
  apply u_done_visible; try assumption; try lia; [rewrite zlen_app, zlen_le by lia; lia|].
  exists ce1, ce2, s, flip, 0, 0. rewrite <- V0, <- V1. cbn [app]. split; [exact R0|]. split; [exact R1|]. split; [exact (even_room s flip Hp R2)|]. split; [exact Hp|]. split; [discriminate|reflexivity].
Qed.
Lemma refs_start n : refs_ok (repeat default_elem n).
Proof. apply Forall_forall. intros b I. apply repeat_spec in I. subst b. cbn. lia. Qed.
Lemma unity_etc1_inv cd dst out : h_faces (u_header u) = faces -> zlen dst = faces * H * W * 8 ->
  unity_unpack_etc1 m u cd dst (W * 8) W H = Ok out ->
  exists block, (forall q, 0 <= q < faces * H * W -> draw1 (block q)) /\ out = flat_map block (zrange 0 (faces * H * W)).
Proof.
  intros Ef L E. unfold unity_unpack_etc1 in E. cbv zeta in E. rewrite Ef in E. step E. destruct a as [s dst']. apply ok_inj in E. subst dst'.
  change (W * 8) with (W * (4 * 2)) in E0.
  apply (unity_loops_inv W H faces 2 HW HH HF ltac:(lia) ltac:(lia) HS (small_room W H faces HW HH HF HZ) m etc1_inv) in E0; auto.
  - apply (u_done_end W H faces 2 HW HH HF ltac:(lia) draw1 out (proj1 E0)).
  - split; [apply u_done_start; auto; lia|apply refs_start].
  - intros f x y st st'. apply u_etc1_block_inv.
Qed.

(** *** ETC2 with alpha *)
Hypothesis HAE : ProofCrnLevel.words AE.
Hypothesis HAS : ProofCrnLevel.words AS.
Hypothesis HAL : AS = [] \/ exists n, zlen AS = 6 * n + 1.
Notation draw2 := (halves_block true CE CS AE AS).
Definition etc2a_inv (n : Z) (st : Z * Z * Z * Z * list elem * codec * list Z) : Prop :=
  u_done W H faces 4 draw2 n (snd st) /\ refs_ok (snd (fst (fst st))).
Lemma alpha_six s flip : 0 <= flip < 2 -> (if negb (flip =? 0) then s * 6 + 3 else s * 6) = 6 * s + 3 * flip.
Proof. intros Hf. destruct (Z.eqb_spec flip 0); cbn [negb]; lia. Qed.
Lemma six_room s flip : 0 <= flip < 2 -> 0 <= 6 * s + 3 * flip -> 6 * s + 3 * flip + 3 <= zlen AS -> 0 <= s /\ 6 * s + 5 < zlen AS.
Proof. intros Hf H1 H2. destruct HAL as [En|[n En]]; [rewrite En in *; change (zlen (@nil Z)) with 0 in *; lia|lia]. Qed.
Lemma u_etc2a_block_inv f x y st st' : 0 <= f < faces -> 0 <= x < cols -> 0 <= y < rows -> etc2a_inv (place f x y) st ->
  unity_etc2a_block m u y x ((y <? H) && (x <? W)) (seen f x y * 4) st = Ok st' -> etc2a_inv (place f x y + 1) st'.
Proof.
  intros Hf Hx Hy. destruct st as [[[[[[ce ae] g] h] buf] cd] dst]. unfold etc2a_inv. cbn [fst snd]. intros [D B] E. unfold unity_etc2a_block in E. cbv zeta in E.
  step E. rename a into b. step E. destruct a as [[r b1] cd1]. destruct (etc_reference_inv _ _ _ _ _ _ _ _ _ (refs_at _ _ _ B E0) E1) as [Rr Rb].
  step E. destruct a as [[[ce1 ae1] b2] cd2].
  assert (b_ref b2 = b_ref b1) as Eb.
  { clear E. repeat match type of E2 with (if ?c then _ else _) = _ => destruct c end.
    - step E2. destruct a as [c' cd']. step E2. destruct a as [a' cd'']. assert (b2 = set_alpha0 (set_color b1 (u16 c')) (u16 a')) as -> by congruence. reflexivity.
    - assert (b2 = set_alpha0 (set_color b1 (u16 ce)) (u16 ae)) as -> by congruence. reflexivity.
    - assert (b2 = set_alpha0 (set_color b1 (u16 g)) (u16 h)) as -> by congruence. reflexivity.
    - congruence. }
  step E. rename a into buf1. assert (refs_ok buf1) as B1 by (eapply refs_upd; [exact B| |exact E3]; lia).
  step E. rename a into v0. destruct (five_at _ _ E4) as (R0 & V0 & F0). step E. destruct a as [s cd3]. step E. destruct a as [t cd4]. step E. destruct a as [ce2 cd5].
  step E. rename a into v1. destruct (five_at _ _ E8) as (R1 & V1 & F1).
  step E. rename a into b3. step E. rename a into buf2.
  assert (refs_ok buf2) as B2 by (eapply refs_upd; [exact B1| |exact E10]; cbn [set_alpha0 set_color b_ref]; exact (refs_at _ _ _ B1 E9)).
  destruct ((y <? H) && (x <? W)) eqn:V.
  2: { apply ok_inj in E. subst st'. cbn [fst snd]. split; [apply u_done_hidden; auto; lia|exact B2]. }
  destruct (visible_split W H x y V) as [Vx Vy]. destruct (room_pos W H faces HW HH HF HZ 4 f x y dst ltac:(lia) Hf ltac:(lia) ltac:(lia) (proj1 D)) as (P1 & P2 & P3).
  pose proof (flip_ok r Rr) as Hp. set (flip := Z.lxor (Z.shiftr (Z.shiftr r 2) 1) 1) in *.
  step E. destruct (loose_head_ok m v0 v1 flip F0 F1 Hp) as [EH LH]. rewrite EH in E11. apply ok_inj in E11. subst a. clear EH.
  rewrite alpha_six in E by exact Hp. step E. destruct (unity_alpha_words_inv u _ _ E11) as (S1 & S2 & ->). clear E11.
  step E. apply idx_inv in E11 as [R3 ->]. step E. rewrite write_alpha_ok in E11 by (try apply words_znth; auto; lia). apply ok_inj in E11. subst a.
  match type of E with context [put dst _ ?w] => set (wa := w) in E end.
  assert (zlen wa = 8) as La by (unfold wa; rewrite !zlen_app, !zlen_le by lia; reflexivity).
  step E. rewrite write_bytes4_ok in E11 by (rewrite ?zlen_put by lia; lia).
  replace (4 * (seen f x y * 4 + 2)) with (4 * (seen f x y * 4) + zlen wa) in E11 by lia. rewrite put_put in E11 by lia. apply ok_inj in E11. subst a.
  step E. rewrite lor_flip in E11 by lia. apply idx_inv in E11 as [R2 ->].
  step E. rewrite (put_more m dst (4 * (seen f x y * 4)) (wa ++ loose_head v0 v1 flip) _ (seen f x y * 4 + 3) (znth CS (2 * s + flip))) in E11 by (rewrite ?zlen_app; try lia; reflexivity).
  apply ok_inj in E11. subst a. apply ok_inj in E. subst st'. cbn [fst snd]. split; [|exact B2]. replace (4 * (seen f x y * 4)) with (seen f x y * (4 * 4)) by ring.
  apply u_done_visible; try assumption; try lia; [rewrite !zlen_app, zlen_le by lia; lia|].
  exists ce1, ce2, s, flip, ae1, t. rewrite <- V0, <- V1. cbv iota. split; [exact R0|]. split; [exact R1|]. split; [exact (even_room s flip Hp R2)|]. split; [exact Hp|].
  split; [intros _; split; [exact R3|exact (six_room t flip Hp S1 S2)]|]. unfold wa. rewrite <- !app_assoc. reflexivity.
Qed.
Lemma unity_etc2a_inv cd dst out : h_faces (u_header u) = faces -> zlen dst = faces * H * W * 16 ->
  unity_unpack_etc2a m u cd dst (W * 16) W H = Ok out ->
  exists block, (forall q, 0 <= q < faces * H * W -> draw2 (block q)) /\ out = flat_map block (zrange 0 (faces * H * W)).
Proof.
  intros Ef L E. unfold unity_unpack_etc2a in E. cbv zeta in E. rewrite Ef in E. step E. destruct a as [s dst']. apply ok_inj in E. subst dst'.
  change (W * 16) with (W * (4 * 4)) in E0.
  apply (unity_loops_inv W H faces 4 HW HH HF ltac:(lia) ltac:(lia) HS HZ m etc2a_inv) in E0; auto.
  - apply (u_done_end W H faces 4 HW HH HF ltac:(lia) draw2 out (proj1 E0)).
  - split; [apply u_done_start; auto; lia|apply refs_start].
  - intros f x y st st'. apply u_etc2a_block_inv.
Qed.
End Halves.
