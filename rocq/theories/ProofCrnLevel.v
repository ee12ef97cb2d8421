(** * Proofs about the four unpackers of crunch levels. *)
From Verif Require Import Base BaseLemmas ModelCrn ModelCrunch SpecCrn SpecCrnLevel ProofHuff ProofCrnIndex ProofCrnGrid.

Lemma zsum_0 f : zsum 0 f = 0.
Proof. reflexivity. Qed.
Lemma zsum_snoc n f : 0 <= n -> zsum (n + 1) f = zsum n f + f n.
Proof. intros Hn. unfold zsum. rewrite zrange_snoc, map_app, sum_app by lia. cbn [map]. unfold sum at 2. cbn [fold_right]. lia. Qed.

Definition dm_of (u : unpacker) (k : kind) : model :=
  match k with
  | Chunks => u_first_dm u
  | ColorEnd => u_endpoint_dm0 u
  | ColorSel => u_selector_dm0 u
  | AlphaEnd => u_endpoint_dm1 u
  | AlphaSel => u_selector_dm1 u
  end.

(** The codec delivers these symbols. *)
Fixpoint feeds (m : build) (u : unpacker) (cd : codec) (l : list (kind * Z)) : Prop :=
  match l with
  | [] => True
  | kv :: l' => exists cd', decode m (dm_of u (fst kv)) cd = Ok (snd kv, cd') /\ feeds m u cd' l'
  end.

(** ** Cuts *)
Lemma tiles_ok e : 0 <= e < 8 ->
  idx CRND_CHUNK_ENCODING_NUM_TILES e = Ok (num_tiles e) /\ 1 <= num_tiles e <= 4 /\
  exists t, idx CRND_CHUNK_ENCODING_TILES e = Ok t /\ forall k, 0 <= k < 4 -> idx t k = Ok (tile_of e k) /\ 0 <= tile_of e k < num_tiles e.
Proof.
  intros He.
  assert (e = 0 \/ e = 1 \/ e = 2 \/ e = 3 \/ e = 4 \/ e = 5 \/ e = 6 \/ e = 7) as C by lia.
  assert (forall k, 0 <= k < 4 -> k = 0 \/ k = 1 \/ k = 2 \/ k = 3) as K by (intros; lia).
  repeat destruct C as [->|C]; [..|subst e].
  all: split; [reflexivity|split; [vm_compute; split; congruence|]]; eexists; split; [reflexivity|].
  all: intros k Hk; destruct (K k Hk) as [->|[->|[->| ->]]]; (split; [reflexivity|vm_compute; split; congruence]).
Qed.

Section Unpack.
Context (m : build) (u : unpacker) (planes : list plane) (D : symbols).
Hypothesis HG : forall g, 0 <= group D g < 512.
Notation feeds := (feeds m u).

Lemma cut_range n : 0 <= cut_of D n < 8.
Proof. unfold cut_of. apply Z.mod_pos_bound. lia. Qed.

Definition bits_at (n : Z) : Z := if n mod 3 =? 0 then 1 else (512 + group D (n / 3)) / 8 ^ (n mod 3).

Lemma next_encoding_ok msg n cd rest : 0 <= n ->
  feeds cd ((if n mod 3 =? 0 then [(Chunks, group D (n / 3))] else []) ++ rest) ->
  exists cd', next_encoding m msg u (bits_at n) cd = Ok (cut_of D n, bits_at (n + 1), cd') /\ feeds cd' rest.
Proof.
  intros Hn F. pose proof (HG (n / 3)) as G. pose proof (Z.div_mod n 3 ltac:(lia)) as DM. pose proof (Z.mod_pos_bound n 3 ltac:(lia)) as MB.
  set (g := group D (n / 3)) in *. unfold next_encoding, bits_at, cut_of. fold g.
  assert (forall v, Z.land v 7 = v mod 8) as L7 by (intros v; change 7 with (Z.ones 3); apply Z.land_ones; lia).
  assert (forall v, Z.shiftr v 3 = v / 8) as S3 by (intros v; rewrite shr_div by lia; reflexivity).
  destruct (Z.eqb_spec (n mod 3) 0) as [E|E].
  - cbn [app ProofCrnLevel.feeds fst snd dm_of] in F. destruct F as (cd' & Dc & F).
    rewrite Z.eqb_refl, Dc. cbn [or_err bind]. exists cd'. split; [|exact F]. rewrite L7, S3, E.
    assert (Z.lor g 512 = 512 + g) as ->.
    { rewrite Z.lor_comm. apply (lor_add' 1 g 512 9); lia. }
    assert ((n + 1) mod 3 = 1 /\ (n + 1) / 3 = n / 3) as [-> ->].
    { split; [symmetry; apply Z.mod_unique with (n / 3); lia|symmetry; apply Z.div_unique with 1; lia]. }
    fold g. cbn [Z.eqb]. change (8 ^ 0) with 1. change (8 ^ 1) with 8. rewrite Z.div_1_r.
    assert ((512 + g) mod 8 = g mod 8) as -> by (change 512 with (64 * 8); rewrite Z.add_comm; apply Z.mod_add; lia). reflexivity.
  - cbn [app] in F.
    assert (((512 + g) / 8 ^ (n mod 3) =? 1) = false) as ->.
    { apply Z.eqb_neq. assert (n mod 3 = 1 \/ n mod 3 = 2) as [-> | ->] by lia; [change (8 ^ 1) with 8|change (8 ^ 2) with 64].
      - pose proof (Z.div_le_mono 512 (512 + g) 8 ltac:(lia) ltac:(lia)) as K. change (512 / 8) with 64 in K. lia.
      - pose proof (Z.div_le_mono 512 (512 + g) 64 ltac:(lia) ltac:(lia)) as K. change (512 / 64) with 8 in K. lia. }
    cbn [bind]. exists cd. split; [|exact F]. rewrite L7, S3.
    assert (n mod 3 = 1 \/ n mod 3 = 2) as [Em|Em] by lia; rewrite Em.
    + assert ((n + 1) mod 3 = 2 /\ (n + 1) / 3 = n / 3) as [-> ->].
      { split; [symmetry; apply Z.mod_unique with (n / 3); lia|symmetry; apply Z.div_unique with 2; lia]. }
      fold g. cbn [Z.eqb]. change (8 ^ 1) with 8. change (8 ^ 2) with (8 * 8). rewrite <- Z.div_div by lia.
      change 512 with (64 * 8). rewrite Z.add_comm, Z.div_add by lia.
      assert ((g / 8 + 64) mod 8 = (g / 8) mod 8) as -> by (change 64 with (8 * 8); apply Z.mod_add; lia). reflexivity.
    + assert ((n + 1) mod 3 = 0) as -> by (symmetry; apply Z.mod_unique with (n / 3 + 1); lia).
      cbn [Z.eqb]. change (8 ^ 2) with 64. rewrite Z.div_div by lia. change (64 * 8) with 512.
      assert ((512 + g) / 512 = 1) as -> by (symmetry; apply Z.div_unique with g; lia).
      change 512 with (8 * 64). rewrite Z.add_comm, Z.div_add by lia.
      assert ((g / 64 + 8) mod 8 = (g / 64) mod 8) as -> by (change 8 with (1 * 8) at 1; apply Z.mod_add; lia). reflexivity.
Qed.

Lemma tile_endpoints_ok msg kd pal nt A d cd rest : 0 < zlen pal <= 2 ^ 30 -> 0 <= nt <= 4 ->
  (forall t, 0 <= d t < zlen pal) -> feeds cd (map (fun t => (kd, d t)) (zrange 0 nt) ++ rest) ->
  exists cd', tile_endpoints m msg (dm_of u kd) pal nt (A mod zlen pal) cd =
    Ok (tab 4 (fun t => if t <? nt then znth pal ((A + zsum (t + 1) d) mod zlen pal) else 0), (A + zsum nt d) mod zlen pal, cd') /\
    feeds cd' rest.
Proof.
  intros HN Hnt Hd F. unfold tile_endpoints.
  match goal with |- exists _, for_range 0 nt ?g ?s = _ /\ _ =>
    destruct (for_range_inv (fun i (st : list Z * Z * codec) => let '(eps, prev, cd) := st in
      eps = tab 4 (fun t => if t <? i then znth pal ((A + zsum (t + 1) d) mod zlen pal) else 0) /\
      prev = (A + zsum i d) mod zlen pal /\ feeds cd (map (fun t => (kd, d t)) (zrange i nt) ++ rest)) 0 nt g s)
      as ([[eps prev] cd'] & E & Q1 & Q2 & Q3)
  end.
  - lia.
  - split; [|split; [rewrite zsum_0, Z.add_0_r; reflexivity|exact F]].
    change (repeat 0 4) with (tab 4 (fun _ => 0)). apply tab_ext. intros t Ht. destruct (Z.ltb_spec t 0); [lia|reflexivity].
  - clear cd F. intros i [[eps prev] cd] Hi (P1 & P2 & P3). rewrite zrange_cons in P3 by lia.
    cbn [map app ProofCrnLevel.feeds fst snd] in P3. destruct P3 as (cd' & Dc & F).
    pose proof (Z.mod_pos_bound (A + zsum i d) (zlen pal) ltac:(lia)) as R.
    rewrite (next_index_ok m msg (dm_of u kd) (zlen pal) prev cd (d i) cd') by (auto; subst; auto). cbn [bind].
    assert ((prev + d i) mod zlen pal = (A + zsum (i + 1) d) mod zlen pal) as EP.
    { rewrite P2, zsum_snoc by lia. rewrite Zplus_mod_idemp_l. f_equal. lia. }
    rewrite EP. pose proof (Z.mod_pos_bound (A + zsum (i + 1) d) (zlen pal) ltac:(lia)) as R'.
    rewrite idx_ok by lia. cbn [bind]. rewrite P1, upd_tab_if by lia. cbn [bind]. eexists. split; [reflexivity|].
    split; [|split; [reflexivity|exact F]]. apply tab_ext. intros t Ht.
    destruct (Z.eqb_spec t i) as [->|N].
    + destruct (Z.ltb_spec i (i + 1)); [reflexivity|lia].
    + destruct (Z.ltb_spec t i), (Z.ltb_spec t (i + 1)); try lia; reflexivity.
  - rewrite E. exists cd'. split; [rewrite Q1, Q2; reflexivity|]. rewrite zrange_nil in Q3 by lia. exact Q3.
Qed.

(** One move of a selector index. *)
Lemma selector_ok msg kd N A d k cd rest : 0 < N <= 2 ^ 30 -> 0 <= k -> 0 <= d k < N ->
  feeds cd ((kd, d k) :: rest) ->
  exists cd', next_index m msg (dm_of u kd) N ((A + zsum k d) mod N) cd = Ok ((A + zsum (k + 1) d) mod N, cd') /\ feeds cd' rest.
Proof.
  intros HN Hk Hd (cd' & Dc & F). cbn [fst snd] in Dc. exists cd'. split; [|exact F].
  pose proof (Z.mod_pos_bound (A + zsum k d) N ltac:(lia)) as R.
  rewrite (next_index_ok m msg (dm_of u kd) N _ cd (d k) cd') by auto. rewrite zsum_snoc, Zplus_mod_idemp_l by lia.
  do 3 f_equal. lia.
Qed.
End Unpack.

(** ** Writing blocks *)
Lemma le4_split a b : 0 <= a < 65536 -> le 4 (Z.lor a (Z.shiftl b 16)) = le 2 a ++ le 2 b.
Proof.
  intros Ha. rewrite shl_mul by lia. rewrite lor_comm_add by lia.
  unfold le. change (zrange 0 4) with [0; 1; 2; 3]. change (zrange 0 2) with [0; 1]. cbn [map app].
  change (256 ^ 0) with 1. change (256 ^ 1) with 256. change (256 ^ 2) with 65536. change (256 ^ 3) with 16777216. change (2 ^ 16) with 65536.
  rewrite !Z.div_1_r.
  assert ((a + b * 65536) mod 256 = a mod 256) as -> by (change 65536 with (256 * 256); rewrite Z.mul_assoc; apply Z.mod_add; lia).
  assert ((a + b * 65536) / 256 mod 256 = a / 256 mod 256) as ->.
  { change 65536 with (256 * 256). rewrite Z.mul_assoc, Z.div_add by lia. apply Z.mod_add. lia. }
  assert ((a + b * 65536) / 65536 = b) as -> by (rewrite Z.div_add, Z.div_small by lia; lia).
  assert ((a + b * 65536) / 16777216 = b / 256) as ->.
  { change 16777216 with (65536 * 256). rewrite <- Z.div_div by lia. rewrite Z.div_add, (Z.div_small a) by lia. reflexivity. }
  reflexivity.
Qed.

Lemma write_two m dst pd a b : 0 <= pd -> 4 * pd + 8 <= zlen dst -> zlen dst < 2 ^ 63 ->
  (let* dst := write_int m dst pd a in write_int m dst (pd + 1) b) = Ok (put dst (4 * pd) (le 4 a ++ le 4 b)).
Proof.
  intros H1 H2 H3. assert (forall v, zlen (le 4 v) = 4) as L by (intros; apply zlen_le; lia).
  rewrite write_int_ok by lia. cbn [bind]. rewrite write_int_ok by (rewrite ?zlen_put; rewrite ?L; lia).
  f_equal. replace (4 * (pd + 1)) with (4 * pd + zlen (le 4 a)) by (rewrite L; lia). apply put_put; rewrite ?L; lia.
Qed.
Lemma write_alpha_ok m u dst pd e w0 w1 w2 : 0 <= pd -> 4 * pd + 8 <= zlen dst -> zlen dst < 2 ^ 63 ->
  0 <= e < 65536 -> 0 <= w1 < 65536 ->
  write_alpha m u dst pd e (w0, w1, w2) = Ok (put dst (4 * pd) (le 2 e ++ le 2 w0 ++ le 2 w1 ++ le 2 w2)).
Proof.
  intros H1 H2 H3 He Hw. unfold write_alpha. rewrite write_two by lia. rewrite !le4_split by lia. rewrite <- app_assoc. reflexivity.
Qed.

Definition words (l : list Z) : Prop := Forall (fun v => 0 <= v < 65536) l.
Lemma words_znth l i : words l -> 0 <= znth l i < 65536.
Proof.
  intros H. unfold znth. destruct (nth_in_or_default (Z.to_nat i) l 0) as [I|I].
  - unfold words in H. rewrite Forall_forall in H. exact (H _ I).
  - rewrite I. lia.
Qed.

(** Palettes fit for use. *)
Definition color_ready (u : unpacker) : Prop :=
  0 < zlen (u_color_endpoints u) <= 2 ^ 30 /\ 0 < zlen (u_color_selectors u) <= 2 ^ 30.
Definition alpha_ready (u : unpacker) : Prop :=
  0 < zlen (u_alpha_endpoints u) <= 2 ^ 30 /\ words (u_alpha_endpoints u) /\
  0 < p_num (h_alpha_selectors (u_header u)) <= 2 ^ 30 /\
  zlen (u_alpha_selectors u) = 3 * p_num (h_alpha_selectors (u_header u)) /\ words (u_alpha_selectors u).

Lemma alpha_words_ok m u i : alpha_ready u -> 0 <= i < p_num (h_alpha_selectors (u_header u)) ->
  alpha_words m u i = Ok (znth (u_alpha_selectors u) (3 * i), znth (u_alpha_selectors u) (3 * i + 1), znth (u_alpha_selectors u) (3 * i + 2)).
Proof.
  intros (_ & _ & Hn & L & _) Hi. unfold alpha_words. rewrite ua_ok by lia. cbn [bind]. rewrite slice_from_ok by lia. cbn [bind].
  assert (forall j, 0 <= j < 3 -> idx (skipn (Z.to_nat (i * 3)) (u_alpha_selectors u)) j = Ok (znth (u_alpha_selectors u) (3 * i + j))) as K.
  { intros j Hj. rewrite idx_ok by (rewrite zlen_skipn; lia). rewrite znth_skipn by lia. do 2 f_equal. lia. }
  rewrite !K by lia. cbn [bind]. rewrite Z.add_0_r. reflexivity.
Qed.

Section Formats.
Context (m : build) (u : unpacker) (D : symbols) (W H faces : Z).
Hypothesis HG : forall g, 0 <= group D g < 512.
Hypothesis HW : 1 <= W.
Hypothesis HH : 1 <= H.
Hypothesis HF : 1 <= faces.
Hypothesis HS : faces = 1 \/ H mod 2 = 0.
Notation feeds := (feeds m u).
Notation cc := (chunk_cols W).
Notation cr := (chunk_rows H).
Notation num := (num_chunks W H faces).
Notation C := (chunk_no W H).

Lemma chunk_no_range f x y : 0 <= f < faces -> 0 <= x < cc -> 0 <= y < cr -> 0 <= C f x y < num.
Proof.
  intros Hf Hx Hy. unfold chunk_no, num_chunks.
  assert (0 <= (if Z.odd y then cc - 1 - x else x) < cc) as S by (destruct (Z.odd y); lia).
  set (s := if Z.odd y then _ else _) in *. assert (0 <= f * cr + y /\ f * cr + y + 1 <= faces * cr) as [B1 B2] by nia. nia.
Qed.

Definition expect (planes : list plane) (q : Z) : list Z := level_block planes D W H (q / W / H) (q mod W) ((q / W) mod H).
Lemma expect_block planes f x y k : 0 <= f -> 0 <= x -> 0 <= y -> 0 <= k < 4 -> inside W H x y k = true ->
  expect planes (block_no W H f x y k) = chunk_block planes D (C f x y) k.
Proof.
  intros Hf Hx Hy Hk I. destruct (block_no_coords W H f x y k Hf Hx Hy Hk I) as (_ & E2 & E3 & E4).
  destruct (k_div k Hk) as (K1 & K2 & K3).
  unfold expect, level_block. rewrite E2, E3, E4. destruct (half_parts x (k mod 2) K2) as [-> ->]. destruct (half_parts y (k / 2) K1) as [-> ->].
  f_equal. lia.
Qed.

Lemma pd_ok bpb f x y k : bpb mod 4 = 0 ->
  4 * ((row_dst W H bpb f y + 2 * x * bpb + k / 2 * (W * bpb) + k mod 2 * bpb) / 4) = block_no W H f x y k * bpb.
Proof.
  intros B. assert (row_dst W H bpb f y + 2 * x * bpb + k / 2 * (W * bpb) + k mod 2 * bpb = block_no W H f x y k * bpb) as ->.
  { unfold row_dst, block_no. ring. }
  symmetry. apply Z.div_exact; [lia|]. rewrite Zmult_mod, B, Z.mul_0_r. reflexivity.
Qed.

Definition end_sum (p n : Z) : Z := zsum n (fun n' => zsum (num_tiles (cut_of D n')) (d_end D p n')).
Definition sel_sum (p n : Z) : Z := zsum n (fun n' => zsum 4 (d_sel D p n')).

(** Symbols of chunk [n] from the selectors of block [k] on. *)
Definition selectors_from (planes : list plane) (n k : Z) : list (kind * Z) :=
  flat_map (fun k => map (fun p => (pl_sel (plane_at planes p), d_sel D p n k)) (plane_nos planes)) (zrange k 4).
Lemma selectors_cons planes n k : 0 <= k < 4 ->
  selectors_from planes n k = map (fun p => (pl_sel (plane_at planes p), d_sel D p n k)) (plane_nos planes) ++ selectors_from planes n (k + 1).
Proof. intros Hk. unfold selectors_from. rewrite (zrange_cons k) by lia. reflexivity. Qed.

Definition chunks_from (planes : list plane) (n : Z) : list (kind * Z) := flat_map (chunk_symbols planes D) (zrange n num).
Lemma chunks_cons planes n : 0 <= n < num ->
  chunks_from planes n = (if n mod 3 =? 0 then [(Chunks, group D (n / 3))] else []) ++
    flat_map (fun p => map (fun t => (pl_end (plane_at planes p), d_end D p n t)) (zrange 0 (num_tiles (cut_of D n)))) (plane_nos planes) ++
    selectors_from planes n 0 ++ chunks_from planes (n + 1).
Proof.
  intros Hn. unfold chunks_from. rewrite (zrange_cons n) by lia. cbn [flat_map]. unfold chunk_symbols at 1.
  rewrite <- !app_assoc. reflexivity.
Qed.

Notation ap := (alpha_plane (u_alpha_endpoints u) (u_alpha_selectors u)).
Notation cp := (color_plane (u_color_endpoints u) (u_color_selectors u)).
Notation AE := (u_alpha_endpoints u).
Notation AS := (u_alpha_selectors u).
Notation an := (p_num (h_alpha_selectors (u_header u))).
Notation CE := (u_color_endpoints u).
Notation CS := (u_color_selectors u).

(** Reading an end point through a tile. *)
Lemma tile_end pal n k (g : Z -> Z) t : 0 <= k < 4 ->
  idx CRND_CHUNK_ENCODING_TILES (cut_of D n) = Ok t ->
  (let* i := idx t k in idx (tab 4 (fun i => if i <? num_tiles (cut_of D n) then znth pal (g i) else 0)) i) = Ok (znth pal (g (tile_of (cut_of D n) k))).
Proof.
  intros Hk E. destruct (tiles_ok (cut_of D n) (cut_range D n)) as (_ & B & t' & E' & K).
  rewrite E in E'. injection E' as <-. destruct (K k Hk) as [-> R]. cbn [bind].
  rewrite idx_ok by (rewrite zlen_tab; lia). rewrite znth_tab by lia. destruct (Z.ltb_spec (tile_of (cut_of D n) k) (num_tiles (cut_of D n))); [reflexivity|lia].
Qed.

(** *** DXT5A *)
Section Dxt5a.
Hypothesis HA : alpha_ready u.
Hypothesis HD : sensible [ap] D.
Hypothesis HP : W * 8 < 2 ^ 20.
Hypothesis HL : last_chunk W H faces 8 + loop_reach m H 8 < 2 ^ 31.
Hypothesis HK : last_chunk W H faces 8 + block_reach m W H 8 < 2 ^ 31.
Hypothesis HFH : faces * (2 * chunk_rows H) * 8 < 2 ^ 28.
Hypothesis HZ : faces * H * W * 8 < 2 ^ 62.

Lemma an_eq : zlen AS / 3 = an.
Proof. destruct HA as (_ & _ & _ & L & _). rewrite L, Z.mul_comm, Z.div_mul by lia. reflexivity. Qed.

Lemma zlen_alpha_block e s : zlen (pl_block ap e s) = 8.
Proof. cbn [alpha_plane pl_block]. rewrite !zlen_app, !zlen_le by lia. reflexivity. Qed.
Lemma zlen_color_block e s : zlen (pl_block cp e s) = 8.
Proof. cbn [color_plane pl_block]. rewrite !zlen_app, !zlen_le by lia. reflexivity. Qed.

Lemma expect_len5a q : zlen (expect [ap] q) = 8.
Proof. unfold expect, level_block, chunk_block. change (plane_nos [ap]) with [0]. cbn [flat_map]. rewrite app_nil_r. apply zlen_alpha_block. Qed.

Lemma dxt5a_chunk_ok f x y st : 0 <= f < faces -> 0 <= x < cc -> 0 <= y < cr ->
  (let '(bits, ae, al, cd, dst) := st in
    bits = bits_at D (C f x y) /\ ae = end_sum 0 (C f x y) mod zlen AE /\ al = sel_sum 0 (C f x y) mod an /\
    feeds cd (chunks_from [ap] (C f x y)) /\ filled_to W H faces 8 (expect [ap]) (4 * C f x y) dst) ->
  exists st', dxt5a_chunk m u (W * 8) (negb (2 * x + 1 <? W)) (negb (2 * y + 1 <? H)) (row_dst W H 8 f y + 2 * x * 8) st = Ok st' /\
  (let '(bits, ae, al, cd, dst) := st' in
    bits = bits_at D (C f x y + 1) /\ ae = end_sum 0 (C f x y + 1) mod zlen AE /\ al = sel_sum 0 (C f x y + 1) mod an /\
    feeds cd (chunks_from [ap] (C f x y + 1)) /\ filled_to W H faces 8 (expect [ap]) (4 * (C f x y + 1)) dst).
Proof.
  intros Hf Hx Hy. destruct st as [[[[bits ae] al] cd] dst]. intros (E1 & E2 & E3 & F & Fl).
  pose proof (chunk_no_range f x y Hf Hx Hy) as Rn. remember (C f x y) as n eqn:En.
  destruct HA as (A1 & A2 & A3 & A4 & A5). destruct HD as (_ & D1 & D2).
  assert (forall t, 0 <= d_end D 0 n t < zlen AE) as De by (intros t; apply (D1 0 n t); cbn; lia).
  assert (forall k, 0 <= d_sel D 0 n k < an) as Ds.
  { intros k. rewrite <- an_eq. apply (D2 0 n k). cbn; lia. }
  rewrite chunks_cons in F by lia. subst bits. unfold dxt5a_chunk.
  destruct (next_encoding_ok m u D HG "Failed to decord DXT5A Texture" n cd _ ltac:(lia) F) as (cd1 & -> & F1). cbn [bind].
  destruct (tiles_ok (cut_of D n) (cut_range D n)) as (-> & Bt & tl & Et & _). cbn [bind]. rewrite Et. cbn [bind].
  change (plane_nos [ap]) with [0] in F1. cbn [flat_map] in F1. rewrite app_nil_r in F1. rewrite E2.
  change (u_endpoint_dm1 u) with (dm_of u AlphaEnd). change (plane_at [ap] 0) with ap in F1. change (pl_end ap) with AlphaEnd in F1.
  destruct (tile_endpoints_ok m u "Failed to decord DXT5A Texture" AlphaEnd AE (num_tiles (cut_of D n)) (end_sum 0 n) (d_end D 0 n) cd1 _ A1 ltac:(lia) De F1) as (cd2 & -> & F2). cbn [bind].
  set (eps := tab 4 _).
  destruct (chunk_blocks_ok W H faces 8 HW HH HF ltac:(lia) HS HP ltac:(reflexivity) HFH m
    (fun k (st : Z * codec * list Z) => let '(al, cd, dst) := st in
      al = (sel_sum 0 n + zsum k (d_sel D 0 n)) mod an /\ feeds cd (selectors_from [ap] n k ++ chunks_from [ap] (n + 1)) /\
      filled_to W H faces 8 (expect [ap]) (4 * n + k) dst) f x y (dxt5a_block m u eps tl) (al, cd2, dst) HK Hf Hx Hy) as ([[al' cd'] dst'] & -> & Q1 & Q2 & Q3).
  - split; [rewrite zsum_0, Z.add_0_r; exact E3|split; [exact F2|rewrite Z.add_0_r; exact Fl]].
  - clear al cd cd1 cd2 dst F F1 F2 E3 Fl. intros k pw [[al cd] dst] Hk (P1 & P2 & P3) EI.
    rewrite selectors_cons in P2 by lia. change (plane_nos [ap]) with [0] in P2. cbn [map app] in P2.
    change (plane_at [ap] 0) with ap in P2. change (pl_sel ap) with AlphaSel in P2.
    unfold dxt5a_block. rewrite P1. change (u_selector_dm1 u) with (dm_of u AlphaSel).
    destruct (selector_ok m u "Failed to decord DXT5A Texture" AlphaSel an (sel_sum 0 n) (d_sel D 0 n) k cd _ A3 ltac:(lia) (Ds k) P2) as (cd' & -> & F'). cbn [bind].
    destruct (inside W H x y k) eqn:I.
    + rewrite (EI eq_refl). assert ((let* i := idx tl k in idx eps i) = Ok (znth AE ((end_sum 0 n + zsum (tile_of (cut_of D n) k + 1) (d_end D 0 n)) mod zlen AE))) as TE
        by exact (tile_end AE n k (fun t => (end_sum 0 n + zsum (t + 1) (d_end D 0 n)) mod zlen AE) tl Hk Et).
      destruct (idx tl k) as [t| |]; cbn [bind] in TE |- *; try discriminate.
      pose proof (Z.mod_pos_bound (sel_sum 0 n + zsum (k + 1) (d_sel D 0 n)) an ltac:(lia)) as Rs.
      rewrite alpha_words_ok by (auto; exact HA). cbn [bind]. rewrite TE. cbn [bind].
      pose proof (block_no_range W H faces HW HH HF f x y k Hf ltac:(lia) ltac:(lia) Hk I) as BR.
      pose proof (pd_ok 8 f x y k ltac:(reflexivity)) as EP.
      assert (zlen dst = faces * H * W * 8) as LD by exact (proj1 P3).
      rewrite write_alpha_ok by (try apply words_znth; auto; lia). cbn [bind].
      eexists. split; [reflexivity|]. split; [reflexivity|split; [exact F'|]].
      rewrite EP, Z.add_assoc. rewrite En in P3 |- *.
      pose proof (fill_visible W H faces 8 (expect [ap]) HW HH HF ltac:(lia) (fun q _ => expect_len5a q) f x y k dst Hf Hx Hy Hk I P3) as G.
      rewrite expect_block in G by (auto; lia). rewrite <- En in G |- *. unfold chunk_block in G. change (plane_nos [ap]) with [0] in G. cbn [flat_map] in G. rewrite app_nil_r in G.
      change (plane_at [ap] 0) with ap in G. unfold end_index, sel_index in G. change (plane_at [ap] 0) with ap in G.
      change (pl_ends ap) with (zlen AE) in G. change (pl_sels ap) with (zlen AS / 3) in G. rewrite an_eq in G. exact G.
    + eexists. split; [reflexivity|]. split; [reflexivity|split; [exact F'|]].
      rewrite Z.add_assoc. rewrite En in P3 |- *. exact (fill_hidden W H faces 8 (expect [ap]) HW HH ltac:(lia) f x y k dst Hf Hx Hy Hk I P3).
  - cbn [bind]. eexists. split; [reflexivity|]. unfold end_sum, sel_sum. rewrite !zsum_snoc by lia.
    split; [reflexivity|split; [reflexivity|split; [exact Q1|split; [exact Q2|]]]].
    replace (4 * (n + 1)) with (4 * n + 4) by lia. exact Q3.
Qed.

Lemma unpack_dxt5a_ok cd dst : h_faces (u_header u) = faces -> feeds cd (level_symbols [ap] D W H faces) ->
  zlen dst = faces * H * W * 8 -> unpack_dxt5a m u cd dst (W * 8) W H cc cr = Ok (level_blocks [ap] D W H faces).
Proof.
  intros Ef F L. unfold unpack_dxt5a. rewrite Ef.
  destruct (chunk_loops_ok W H faces 8 HW HH HF ltac:(lia) HS HP m
    (fun n (st : Z * Z * Z * codec * list Z) => let '(bits, ae, al, cd, dst) := st in
    bits = bits_at D n /\ ae = end_sum 0 n mod zlen AE /\ al = sel_sum 0 n mod an /\
    feeds cd (chunks_from [ap] n) /\ filled_to W H faces 8 (expect [ap]) (4 * n) dst) (dxt5a_chunk m u (W * 8)) (1, 0, 0, cd, dst) HL)
    as ([[[[bits ae] al] cd'] dst'] & -> & Q).
  - split; [reflexivity|split; [reflexivity|split; [reflexivity|split; [exact F|]]]]. apply fill_start; auto; lia.
  - intros f x y st Hf Hx Hy. apply dxt5a_chunk_ok; auto.
  - cbn [bind]. f_equal. destruct Q as (_ & _ & _ & _ & Q).
    exact (fill_end W H faces 8 (expect [ap]) HW HH HF ltac:(lia) (fun q _ => expect_len5a q) dst' Q).
Qed.
End Dxt5a.

Lemma put_more dst o a b pd v : 0 <= o -> o + zlen a + 4 <= zlen dst -> zlen dst < 2 ^ 63 -> 4 * pd = o + zlen a -> b = le 4 v ->
  write_int m (put dst o a) pd v = Ok (put dst o (a ++ b)).
Proof.
  intros H1 H2 H3 E ->. assert (zlen (le 4 v) = 4) as L by (apply zlen_le; lia). pose proof (zlen_nonneg a) as La.
  rewrite write_int_ok by (rewrite ?zlen_put; lia). rewrite E, put_put by lia. reflexivity.
Qed.

(** *** DXT5 *)
Section Dxt5.
Hypothesis HA : alpha_ready u.
Hypothesis HC : color_ready u.
Hypothesis HD : sensible [ap; cp] D.
Hypothesis HP : W * 16 < 2 ^ 20.
Hypothesis HL : last_chunk W H faces 16 + loop_reach m H 16 < 2 ^ 31.
Hypothesis HK : last_chunk W H faces 16 + block_reach m W H 16 < 2 ^ 31.
Hypothesis HFH : faces * (2 * chunk_rows H) * 16 < 2 ^ 28.
Hypothesis HZ : faces * H * W * 16 < 2 ^ 62.

Lemma expect_len5 q : zlen (expect [ap; cp] q) = 16.
Proof.
  unfold expect, level_block, chunk_block. change (plane_nos [ap; cp]) with [0; 1]. cbn [flat_map]. rewrite app_nil_r, zlen_app.
  change (plane_at [ap; cp] 0) with ap. change (plane_at [ap; cp] 1) with cp. rewrite zlen_alpha_block, zlen_color_block. reflexivity.
Qed.

Definition dxt5_rel (n : Z) (st : dxt5_state) : Prop :=
  let '(bits, ce, cs, ae, al, cd, dst) := st in
    bits = bits_at D n /\ ce = end_sum 1 n mod zlen CE /\ cs = sel_sum 1 n mod zlen CS /\
    ae = end_sum 0 n mod zlen AE /\ al = sel_sum 0 n mod an /\
    feeds cd (chunks_from [ap; cp] n) /\ filled_to W H faces 16 (expect [ap; cp]) (4 * n) dst.

Lemma dxt5_chunk_ok f x y st : 0 <= f < faces -> 0 <= x < cc -> 0 <= y < cr -> dxt5_rel (C f x y) st ->
  exists st', dxt5_chunk m u (W * 16) (negb (2 * x + 1 <? W)) (negb (2 * y + 1 <? H)) (row_dst W H 16 f y + 2 * x * 16) st = Ok st' /\
  dxt5_rel (C f x y + 1) st'.
Proof.
  intros Hf Hx Hy. destruct st as [[[[[[bits ce] cs] ae] al] cd] dst]. intros (E1 & E4 & E5 & E2 & E3 & F & Fl).
  pose proof (chunk_no_range f x y Hf Hx Hy) as Rn. remember (C f x y) as n eqn:En.
  pose proof HA as (A1 & A2 & A3 & A4 & A5). pose proof HC as (C1 & C2). pose proof HD as (_ & D1 & D2).
  assert (forall t, 0 <= d_end D 0 n t < zlen AE) as De by (intros t; apply (D1 0 n t); cbn; lia).
  assert (forall t, 0 <= d_end D 1 n t < zlen CE) as De1 by (intros t; apply (D1 1 n t); cbn; lia).
  assert (forall k, 0 <= d_sel D 0 n k < an) as Ds.
  { intros k. rewrite <- (an_eq HA). apply (D2 0 n k). cbn; lia. }
  assert (forall t, 0 <= d_sel D 1 n t < zlen CS) as Ds1 by (intros t; apply (D2 1 n t); cbn; lia).
  rewrite chunks_cons in F by lia. subst bits. unfold dxt5_chunk. cbv zeta.
  destruct (next_encoding_ok m u D HG "Failed to decord DXT5 Texture" n cd _ ltac:(lia) F) as (cd1 & -> & F1). cbn [bind].
  destruct (tiles_ok (cut_of D n) (cut_range D n)) as (-> & Bt & tl & Et & _). cbn [bind]. rewrite Et. cbn [bind].
  change (plane_nos [ap; cp]) with [0; 1] in F1. cbn [flat_map] in F1. rewrite app_nil_r, <- app_assoc in F1. rewrite E2, E4.
  change (u_endpoint_dm1 u) with (dm_of u AlphaEnd). change (plane_at [ap; cp] 0) with ap in F1. change (pl_end ap) with AlphaEnd in F1.
  change (u_endpoint_dm0 u) with (dm_of u ColorEnd). change (plane_at [ap; cp] 1) with cp in F1. change (pl_end cp) with ColorEnd in F1.
  destruct (tile_endpoints_ok m u "Failed to decord DXT5 Texture" AlphaEnd AE (num_tiles (cut_of D n)) (end_sum 0 n) (d_end D 0 n) cd1 _ A1 ltac:(lia) De F1) as (cd2 & -> & F2). cbn [bind].
  destruct (tile_endpoints_ok m u "Failed to decord DXT5 Texture" ColorEnd CE (num_tiles (cut_of D n)) (end_sum 1 n) (d_end D 1 n) cd2 _ C1 ltac:(lia) De1 F2) as (cd3 & -> & F3). cbn [bind].
  set (aeps := tab 4 (fun t => if t <? _ then znth AE _ else 0)). set (ceps := tab 4 (fun t => if t <? _ then znth CE _ else 0)).
  destruct (chunk_blocks_ok W H faces 16 HW HH HF ltac:(lia) HS HP ltac:(reflexivity) HFH m
    (fun k (st : Z * Z * codec * list Z) => let '(cs, al, cd, dst) := st in
      cs = (sel_sum 1 n + zsum k (d_sel D 1 n)) mod zlen CS /\
      al = (sel_sum 0 n + zsum k (d_sel D 0 n)) mod an /\ feeds cd (selectors_from [ap; cp] n k ++ chunks_from [ap; cp] (n + 1)) /\
      filled_to W H faces 16 (expect [ap; cp]) (4 * n + k) dst) f x y (dxt5_block m u ceps aeps tl) (cs, al, cd3, dst) HK Hf Hx Hy) as ([[[cs' al'] cd'] dst'] & -> & Q0 & Q1 & Q2 & Q3).
  - split; [rewrite zsum_0, Z.add_0_r; exact E5|split; [rewrite zsum_0, Z.add_0_r; exact E3|split; [exact F3|rewrite Z.add_0_r; exact Fl]]].
  - clear cs al cd cd1 cd2 cd3 dst F F1 F2 F3 E3 E5 Fl. intros k pw [[[cs al] cd] dst] Hk (P0 & P1 & P2 & P3) EI.
    rewrite selectors_cons in P2 by lia. change (plane_nos [ap; cp]) with [0; 1] in P2. cbn [map app] in P2.
    change (plane_at [ap; cp] 0) with ap in P2. change (pl_sel ap) with AlphaSel in P2.
    change (plane_at [ap; cp] 1) with cp in P2. change (pl_sel cp) with ColorSel in P2.
    unfold dxt5_block. cbv zeta. rewrite P0, P1. change (u_selector_dm1 u) with (dm_of u AlphaSel). change (u_selector_dm0 u) with (dm_of u ColorSel).
    destruct (selector_ok m u "Failed to decord DXT5 Texture" AlphaSel an (sel_sum 0 n) (d_sel D 0 n) k cd _ A3 ltac:(lia) (Ds k) P2) as (cd1 & -> & F1). cbn [bind].
    destruct (selector_ok m u "Failed to decord DXT5 Texture" ColorSel (zlen CS) (sel_sum 1 n) (d_sel D 1 n) k cd1 _ C2 ltac:(lia) (Ds1 k) F1) as (cd' & -> & F'). cbn [bind].
    destruct (inside W H x y k) eqn:I.
    + rewrite (EI eq_refl). assert ((let* i := idx tl k in idx aeps i) = Ok (znth AE ((end_sum 0 n + zsum (tile_of (cut_of D n) k + 1) (d_end D 0 n)) mod zlen AE))) as TE
        by exact (tile_end AE n k (fun t => (end_sum 0 n + zsum (t + 1) (d_end D 0 n)) mod zlen AE) tl Hk Et).
      assert ((let* i := idx tl k in idx ceps i) = Ok (znth CE ((end_sum 1 n + zsum (tile_of (cut_of D n) k + 1) (d_end D 1 n)) mod zlen CE))) as TC
        by exact (tile_end CE n k (fun t => (end_sum 1 n + zsum (t + 1) (d_end D 1 n)) mod zlen CE) tl Hk Et).
      destruct (idx tl k) as [t| |]; cbn [bind] in TE, TC |- *; try discriminate.
      pose proof (Z.mod_pos_bound (sel_sum 0 n + zsum (k + 1) (d_sel D 0 n)) an ltac:(lia)) as Rs.
      pose proof (Z.mod_pos_bound (sel_sum 1 n + zsum (k + 1) (d_sel D 1 n)) (zlen CS) ltac:(lia)) as Rs1.
      rewrite alpha_words_ok by (auto; exact HA). cbn [bind]. rewrite TE. cbn [bind].
      pose proof (block_no_range W H faces HW HH HF f x y k Hf ltac:(lia) ltac:(lia) Hk I) as BR.
      pose proof (pd_ok 16 f x y k ltac:(reflexivity)) as EP. set (pd := _ / 4) in *.
      assert (zlen dst = faces * H * W * 16) as LD by exact (proj1 P3).
      rewrite write_alpha_ok by (try apply words_znth; auto; lia). cbn [bind]. rewrite TC. cbn [bind].
      set (ab := le 2 _ ++ _). assert (zlen ab = 8) as Lab by (unfold ab; rewrite !zlen_app, !zlen_le by lia; reflexivity).
      rewrite (put_more dst (4 * pd) ab _ (pd + 2) _) by (try reflexivity; lia). cbn [bind].
      rewrite idx_ok by lia. cbn [bind].
      rewrite (put_more dst (4 * pd) _ _ (pd + 3) _) by (try reflexivity; rewrite ?zlen_app, ?Lab, ?zlen_le; lia). cbn [bind].
      eexists. split; [reflexivity|]. split; [reflexivity|split; [reflexivity|split; [exact F'|]]].
      rewrite EP, Z.add_assoc. rewrite En in P3 |- *.
      pose proof (fill_visible W H faces 16 (expect [ap; cp]) HW HH HF ltac:(lia) (fun q _ => expect_len5 q) f x y k dst Hf Hx Hy Hk I P3) as G.
      rewrite expect_block in G by (auto; lia). rewrite <- En in G |- *. unfold chunk_block in G. change (plane_nos [ap; cp]) with [0; 1] in G. cbn [flat_map] in G. rewrite app_nil_r in G.
      change (plane_at [ap; cp] 0) with ap in G. change (plane_at [ap; cp] 1) with cp in G. unfold end_index, sel_index in G. change (plane_at [ap; cp] 0) with ap in G. change (plane_at [ap; cp] 1) with cp in G.
      change (pl_ends ap) with (zlen AE) in G. change (pl_sels ap) with (zlen AS / 3) in G. rewrite (an_eq HA) in G.
      rewrite <- (app_assoc ab). exact G.
    + eexists. split; [reflexivity|]. split; [reflexivity|split; [reflexivity|split; [exact F'|]]].
      rewrite Z.add_assoc. rewrite En in P3 |- *. exact (fill_hidden W H faces 16 (expect [ap; cp]) HW HH ltac:(lia) f x y k dst Hf Hx Hy Hk I P3).
  - cbn [bind]. eexists. split; [reflexivity|]. unfold dxt5_rel, end_sum, sel_sum. rewrite !zsum_snoc by lia.
    split; [reflexivity|split; [reflexivity|split; [exact Q0|split; [reflexivity|split; [exact Q1|split; [exact Q2|]]]]]].
    replace (4 * (n + 1)) with (4 * n + 4) by lia. exact Q3.
Qed.

Lemma unpack_dxt5_ok cd dst : h_faces (u_header u) = faces -> feeds cd (level_symbols [ap; cp] D W H faces) ->
  zlen dst = faces * H * W * 16 -> unpack_dxt5 m u cd dst (W * 16) W H cc cr = Ok (level_blocks [ap; cp] D W H faces).
Proof.
  intros Ef F L. unfold unpack_dxt5. rewrite Ef.
  destruct (chunk_loops_ok W H faces 16 HW HH HF ltac:(lia) HS HP m dxt5_rel (dxt5_chunk m u (W * 16)) (1, 0, 0, 0, 0, cd, dst) HL)
    as ([[[[[[bits ce] cs] ae] al] cd'] dst'] & -> & Q).
  - split; [reflexivity|split; [reflexivity|split; [reflexivity|split; [reflexivity|split; [reflexivity|split; [exact F|]]]]]]. apply fill_start; auto; lia.
  - intros f x y st Hf Hx Hy. apply dxt5_chunk_ok; auto.
  - cbn [bind]. f_equal. destruct Q as (_ & _ & _ & _ & _ & _ & Q).
    exact (fill_end W H faces 16 (expect [ap; cp]) HW HH HF ltac:(lia) (fun q _ => expect_len5 q) dst' Q).
Qed.
End Dxt5.

(** *** DXN *)
Section Dxn.
Hypothesis HA : alpha_ready u.
Hypothesis HD : sensible [ap; ap] D.
Hypothesis HP : W * 16 < 2 ^ 20.
Hypothesis HL : last_chunk W H faces 16 + loop_reach m H 16 < 2 ^ 31.
Hypothesis HK : last_chunk W H faces 16 + block_reach m W H 16 < 2 ^ 31.
Hypothesis HFH : faces * (2 * chunk_rows H) * 16 < 2 ^ 28.
Hypothesis HZ : faces * H * W * 16 < 2 ^ 62.

Lemma expect_lenn q : zlen (expect [ap; ap] q) = 16.
Proof.
  unfold expect, level_block, chunk_block. change (plane_nos [ap; ap]) with [0; 1]. cbn [flat_map]. rewrite app_nil_r, zlen_app.
  change (plane_at [ap; ap] 0) with ap. change (plane_at [ap; ap] 1) with ap. rewrite !zlen_alpha_block. reflexivity.
Qed.

Definition dxn_rel (n : Z) (st : dxt5_state) : Prop :=
  let '(bits, e0, s0, e1, s1, cd, dst) := st in
    bits = bits_at D n /\ e0 = end_sum 0 n mod zlen AE /\ s0 = sel_sum 0 n mod an /\
    e1 = end_sum 1 n mod zlen AE /\ s1 = sel_sum 1 n mod an /\
    feeds cd (chunks_from [ap; ap] n) /\ filled_to W H faces 16 (expect [ap; ap]) (4 * n) dst.

Lemma dxn_chunk_ok f x y st : 0 <= f < faces -> 0 <= x < cc -> 0 <= y < cr -> dxn_rel (C f x y) st ->
  exists st', dxn_chunk m u (W * 16) (negb (2 * x + 1 <? W)) (negb (2 * y + 1 <? H)) (row_dst W H 16 f y + 2 * x * 16) st = Ok st' /\
  dxn_rel (C f x y + 1) st'.
Proof.
  intros Hf Hx Hy. destruct st as [[[[[[bits e0] s0] e1] s1] cd] dst]. intros (E1 & E2 & E3 & E4 & E5 & F & Fl).
  pose proof (chunk_no_range f x y Hf Hx Hy) as Rn. remember (C f x y) as n eqn:En.
  pose proof HA as (A1 & A2 & A3 & A4 & A5). pose proof HD as (_ & D1 & D2).
  assert (forall p t, 0 <= p < 2 -> 0 <= d_end D p n t < zlen AE) as De.
  { intros p t Hp. assert (p = 0 \/ p = 1) as [-> | ->] by lia; [apply (D1 0 n t); cbn; lia|apply (D1 1 n t); cbn; lia]. }
  assert (forall p k, 0 <= p < 2 -> 0 <= d_sel D p n k < an) as Ds.
  { intros p k Hp. rewrite <- (an_eq HA). assert (p = 0 \/ p = 1) as [-> | ->] by lia; [apply (D2 0 n k); cbn; lia|apply (D2 1 n k); cbn; lia]. }
  rewrite chunks_cons in F by lia. subst bits. unfold dxn_chunk. cbv zeta.
  destruct (next_encoding_ok m u D HG "Failed to decord DXN Texture" n cd _ ltac:(lia) F) as (cd1 & -> & F1). cbn [bind].
  destruct (tiles_ok (cut_of D n) (cut_range D n)) as (-> & Bt & tl & Et & _). cbn [bind]. rewrite Et. cbn [bind].
  change (plane_nos [ap; ap]) with [0; 1] in F1. cbn [flat_map] in F1. rewrite app_nil_r, <- app_assoc in F1. rewrite E2, E4.
  change (u_endpoint_dm1 u) with (dm_of u AlphaEnd). change (plane_at [ap; ap] 0) with ap in F1. change (plane_at [ap; ap] 1) with ap in F1. change (pl_end ap) with AlphaEnd in F1.
  destruct (tile_endpoints_ok m u "Failed to decord DXN Texture" AlphaEnd AE (num_tiles (cut_of D n)) (end_sum 0 n) (d_end D 0 n) cd1 _ A1 ltac:(lia) (fun t => De 0 t ltac:(lia)) F1) as (cd2 & -> & F2). cbn [bind].
  destruct (tile_endpoints_ok m u "Failed to decord DXN Texture" AlphaEnd AE (num_tiles (cut_of D n)) (end_sum 1 n) (d_end D 1 n) cd2 _ A1 ltac:(lia) (fun t => De 1 t ltac:(lia)) F2) as (cd3 & -> & F3). cbn [bind].
  set (eps0 := tab 4 (fun t => if t <? _ then znth AE ((end_sum 0 n + _) mod _) else 0)). set (eps1 := tab 4 (fun t => if t <? _ then znth AE ((end_sum 1 n + _) mod _) else 0)).
  destruct (chunk_blocks_ok W H faces 16 HW HH HF ltac:(lia) HS HP ltac:(reflexivity) HFH m
    (fun k (st : Z * Z * codec * list Z) => let '(s0, s1, cd, dst) := st in
      s0 = (sel_sum 0 n + zsum k (d_sel D 0 n)) mod an /\
      s1 = (sel_sum 1 n + zsum k (d_sel D 1 n)) mod an /\ feeds cd (selectors_from [ap; ap] n k ++ chunks_from [ap; ap] (n + 1)) /\
      filled_to W H faces 16 (expect [ap; ap]) (4 * n + k) dst) f x y (dxn_block m u eps0 eps1 tl) (s0, s1, cd3, dst) HK Hf Hx Hy) as ([[[s0' s1'] cd'] dst'] & -> & Q0 & Q1 & Q2 & Q3).
  - split; [rewrite zsum_0, Z.add_0_r; exact E3|split; [rewrite zsum_0, Z.add_0_r; exact E5|split; [exact F3|rewrite Z.add_0_r; exact Fl]]].
  - clear s0 s1 cd cd1 cd2 cd3 dst F F1 F2 F3 E3 E5 Fl. intros k pw [[[s0 s1] cd] dst] Hk (P0 & P1 & P2 & P3) EI.
    rewrite selectors_cons in P2 by lia. change (plane_nos [ap; ap]) with [0; 1] in P2. cbn [map app] in P2.
    change (plane_at [ap; ap] 0) with ap in P2. change (plane_at [ap; ap] 1) with ap in P2. change (pl_sel ap) with AlphaSel in P2.
    unfold dxn_block. cbv zeta. rewrite P0, P1. change (u_selector_dm1 u) with (dm_of u AlphaSel).
    destruct (selector_ok m u "Failed to decord DXN Texture" AlphaSel an (sel_sum 0 n) (d_sel D 0 n) k cd _ A3 ltac:(lia) (Ds 0 k ltac:(lia)) P2) as (cd1 & -> & F1). cbn [bind].
    destruct (selector_ok m u "Failed to decord DXN Texture" AlphaSel an (sel_sum 1 n) (d_sel D 1 n) k cd1 _ A3 ltac:(lia) (Ds 1 k ltac:(lia)) F1) as (cd' & -> & F'). cbn [bind].
    destruct (inside W H x y k) eqn:I.
    + rewrite (EI eq_refl). assert ((let* i := idx tl k in idx eps0 i) = Ok (znth AE ((end_sum 0 n + zsum (tile_of (cut_of D n) k + 1) (d_end D 0 n)) mod zlen AE))) as TE
        by exact (tile_end AE n k (fun t => (end_sum 0 n + zsum (t + 1) (d_end D 0 n)) mod zlen AE) tl Hk Et).
      assert ((let* i := idx tl k in idx eps1 i) = Ok (znth AE ((end_sum 1 n + zsum (tile_of (cut_of D n) k + 1) (d_end D 1 n)) mod zlen AE))) as TC
        by exact (tile_end AE n k (fun t => (end_sum 1 n + zsum (t + 1) (d_end D 1 n)) mod zlen AE) tl Hk Et).
      destruct (idx tl k) as [t| |]; cbn [bind] in TE, TC |- *; try discriminate.
      pose proof (Z.mod_pos_bound (sel_sum 0 n + zsum (k + 1) (d_sel D 0 n)) an ltac:(lia)) as Rs.
      pose proof (Z.mod_pos_bound (sel_sum 1 n + zsum (k + 1) (d_sel D 1 n)) an ltac:(lia)) as Rs1.
      rewrite alpha_words_ok by (auto; exact HA). cbn [bind].
      rewrite alpha_words_ok by (auto; exact HA). cbn [bind]. rewrite TE. cbn [bind].
      pose proof (block_no_range W H faces HW HH HF f x y k Hf ltac:(lia) ltac:(lia) Hk I) as BR.
      pose proof (pd_ok 16 f x y k ltac:(reflexivity)) as EP. set (pd := _ / 4) in *.
      assert (zlen dst = faces * H * W * 16) as LD by exact (proj1 P3).
      rewrite write_alpha_ok by (try apply words_znth; auto; lia). cbn [bind]. rewrite TC. cbn [bind].
      set (ab := le 2 _ ++ _). assert (zlen ab = 8) as Lab by (unfold ab; rewrite !zlen_app, !zlen_le by lia; reflexivity).
      rewrite write_alpha_ok by (try apply words_znth; auto; rewrite ?zlen_put; lia). cbn [bind].
      replace (4 * (pd + 2)) with (4 * pd + zlen ab) by lia. rewrite put_put by (rewrite ?zlen_app, ?zlen_le; lia).
      eexists. split; [reflexivity|]. split; [reflexivity|split; [reflexivity|split; [exact F'|]]].
      rewrite EP, Z.add_assoc. rewrite En in P3 |- *.
      pose proof (fill_visible W H faces 16 (expect [ap; ap]) HW HH HF ltac:(lia) (fun q _ => expect_lenn q) f x y k dst Hf Hx Hy Hk I P3) as G.
      rewrite expect_block in G by (auto; lia). rewrite <- En in G |- *. unfold chunk_block in G. change (plane_nos [ap; ap]) with [0; 1] in G. cbn [flat_map] in G. rewrite app_nil_r in G.
      change (plane_at [ap; ap] 0) with ap in G. change (plane_at [ap; ap] 1) with ap in G. unfold end_index, sel_index in G. change (plane_at [ap; ap] 0) with ap in G. change (plane_at [ap; ap] 1) with ap in G.
      change (pl_ends ap) with (zlen AE) in G. change (pl_sels ap) with (zlen AS / 3) in G. rewrite (an_eq HA) in G.
      exact G.
    + eexists. split; [reflexivity|]. split; [reflexivity|split; [reflexivity|split; [exact F'|]]].
      rewrite Z.add_assoc. rewrite En in P3 |- *. exact (fill_hidden W H faces 16 (expect [ap; ap]) HW HH ltac:(lia) f x y k dst Hf Hx Hy Hk I P3).
  - cbn [bind]. eexists. split; [reflexivity|]. unfold dxn_rel, end_sum, sel_sum. rewrite !zsum_snoc by lia.
    split; [reflexivity|split; [reflexivity|split; [exact Q0|split; [reflexivity|split; [exact Q1|split; [exact Q2|]]]]]].
    replace (4 * (n + 1)) with (4 * n + 4) by lia. exact Q3.
Qed.

Lemma unpack_dxn_ok cd dst : h_faces (u_header u) = faces -> feeds cd (level_symbols [ap; ap] D W H faces) ->
  zlen dst = faces * H * W * 16 -> unpack_dxn m u cd dst (W * 16) W H cc cr = Ok (level_blocks [ap; ap] D W H faces).
Proof.
  intros Ef F L. unfold unpack_dxn. rewrite Ef.
  destruct (chunk_loops_ok W H faces 16 HW HH HF ltac:(lia) HS HP m dxn_rel (dxn_chunk m u (W * 16)) (1, 0, 0, 0, 0, cd, dst) HL)
    as ([[[[[[bits ce] cs] ae] al] cd'] dst'] & -> & Q).
  - split; [reflexivity|split; [reflexivity|split; [reflexivity|split; [reflexivity|split; [reflexivity|split; [exact F|]]]]]]. apply fill_start; auto; lia.
  - intros f x y st Hf Hx Hy. apply dxn_chunk_ok; auto.
  - cbn [bind]. f_equal. destruct Q as (_ & _ & _ & _ & _ & _ & Q).
    exact (fill_end W H faces 16 (expect [ap; ap]) HW HH HF ltac:(lia) (fun q _ => expect_lenn q) dst' Q).
Qed.
End Dxn.

(** *** DXT1 *)
Section Dxt1.
Hypothesis HC : color_ready u.
Hypothesis HD : sensible [cp] D.
Hypothesis HP : W * 8 < 2 ^ 20.
Hypothesis HL : last_chunk W H faces 8 + loop_reach m H 8 < 2 ^ 31.
Hypothesis HZ : faces * H * W * 8 < 2 ^ 62.

Lemma expect_len1 q : zlen (expect [cp] q) = 8.
Proof. unfold expect, level_block, chunk_block. change (plane_nos [cp]) with [0]. cbn [flat_map]. rewrite app_nil_r. apply zlen_color_block. Qed.

Definition dxt1_rel (n : Z) (st : dxt1_state) : Prop :=
  let '(bits, ce, cs, cd, dst) := st in
    bits = bits_at D n /\ ce = end_sum 0 n mod zlen CE /\ cs = sel_sum 0 n mod zlen CS /\
    feeds cd (chunks_from [cp] n) /\ filled_to W H faces 8 (expect [cp]) (4 * n) dst.
Definition dxt1_inner (n k : Z) (st : Z * codec * list Z) : Prop :=
  let '(cs, cd, dst) := st in
    cs = (sel_sum 0 n + zsum k (d_sel D 0 n)) mod zlen CS /\ feeds cd (selectors_from [cp] n k ++ chunks_from [cp] (n + 1)) /\
    filled_to W H faces 8 (expect [cp]) (4 * n + k) dst.

Lemma dxt1_block_ok f x y k pd n tl st : 0 <= f < faces -> 0 <= x < cc -> 0 <= y < cr -> 0 <= k < 4 -> n = C f x y ->
  idx CRND_CHUNK_ENCODING_TILES (cut_of D n) = Ok tl -> 4 * pd = block_no W H f x y k * 8 ->
  let eps := tab 4 (fun t => if t <? num_tiles (cut_of D n) then znth CE ((end_sum 0 n + zsum (t + 1) (d_end D 0 n)) mod zlen CE) else 0) in
  dxt1_inner n k st -> exists st', dxt1_part_block m u eps tl (inside W H x y k) k pd st = Ok st' /\
    (inside W H x y k = true -> dxt1_full_block m u eps tl k pd st = Ok st') /\ dxt1_inner n (k + 1) st'.
Proof.
  intros Hf Hx Hy Hk En Et EP eps. destruct st as [[cs cd] dst]. intros (P1 & P2 & P3).
  pose proof HC as (C1 & C2). pose proof HD as (_ & D1 & D2).
  assert (forall k, 0 <= d_sel D 0 n k < zlen CS) as Ds by (intros t; apply (D2 0 n t); cbn; lia).
  rewrite selectors_cons in P2 by lia. change (plane_nos [cp]) with [0] in P2. cbn [map app] in P2.
  change (plane_at [cp] 0) with cp in P2. change (pl_sel cp) with ColorSel in P2.
  unfold dxt1_part_block, dxt1_full_block. rewrite P1. change (u_selector_dm0 u) with (dm_of u ColorSel).
  destruct (selector_ok m u "Failed to decord DXT1 Texture" ColorSel (zlen CS) (sel_sum 0 n) (d_sel D 0 n) k cd _ C2 ltac:(lia) (Ds k) P2) as (cd' & E & F'). rewrite E. cbn [bind].
  destruct (inside W H x y k) eqn:I.
  - assert ((let* i := idx tl k in idx eps i) = Ok (znth CE ((end_sum 0 n + zsum (tile_of (cut_of D n) k + 1) (d_end D 0 n)) mod zlen CE))) as TE
      by exact (tile_end CE n k (fun t => (end_sum 0 n + zsum (t + 1) (d_end D 0 n)) mod zlen CE) tl Hk Et).
    destruct (idx tl k) as [t| |]; cbn [bind] in TE |- *; try discriminate. rewrite TE. cbn [bind].
    pose proof (Z.mod_pos_bound (sel_sum 0 n + zsum (k + 1) (d_sel D 0 n)) (zlen CS) ltac:(lia)) as Rs.
    pose proof (block_no_range W H faces HW HH HF f x y k Hf ltac:(lia) ltac:(lia) Hk I) as BR.
    assert (zlen dst = faces * H * W * 8) as LD by exact (proj1 P3).
    rewrite write_int_ok by lia. cbn [bind]. rewrite idx_ok by lia. cbn [bind].
    rewrite (put_more dst (4 * pd) _ _ (pd + 1) _) by (try reflexivity; rewrite ?zlen_le; lia). cbn [bind].
    eexists. split; [reflexivity|]. split; [intros _; reflexivity|]. split; [reflexivity|split; [exact F'|]].
    rewrite EP, Z.add_assoc. rewrite En in P3 |- *.
    pose proof (fill_visible W H faces 8 (expect [cp]) HW HH HF ltac:(lia) (fun q _ => expect_len1 q) f x y k dst Hf Hx Hy Hk I P3) as G.
    rewrite expect_block in G by (auto; lia). rewrite <- En in G |- *. unfold chunk_block in G. change (plane_nos [cp]) with [0] in G. cbn [flat_map] in G. rewrite app_nil_r in G.
    change (plane_at [cp] 0) with cp in G. unfold end_index, sel_index in G. change (plane_at [cp] 0) with cp in G. exact G.
  - eexists. split; [reflexivity|]. split; [discriminate|]. split; [reflexivity|split; [exact F'|]].
    rewrite Z.add_assoc. rewrite En in P3 |- *. exact (fill_hidden W H faces 8 (expect [cp]) HW HH ltac:(lia) f x y k dst Hf Hx Hy Hk I P3).
Qed.

Lemma inside_all x y k : 0 <= k < 4 -> 2 * x + 1 < W -> 2 * y + 1 < H -> inside W H x y k = true.
Proof. intros Hk H1 H2. destruct (k_div k Hk) as (K1 & K2 & _). unfold inside. apply andb_true_intro. split; apply Z.ltb_lt; lia. Qed.

Lemma dxt1_chunk_ok f x y st : 0 <= f < faces -> 0 <= x < cc -> 0 <= y < cr -> dxt1_rel (C f x y) st ->
  exists st', dxt1_chunk m u (W * 8) (negb (2 * x + 1 <? W)) (negb (2 * y + 1 <? H)) (row_dst W H 8 f y + 2 * x * 8) st = Ok st' /\
  dxt1_rel (C f x y + 1) st'.
Proof.
  intros Hf Hx Hy. destruct st as [[[[bits ce] cs] cd] dst]. intros (E1 & E2 & E3 & F & Fl).
  pose proof (chunk_no_range f x y Hf Hx Hy) as Rn. remember (C f x y) as n eqn:En.
  pose proof HC as (C1 & C2). pose proof HD as (_ & D1 & D2).
  assert (forall t, 0 <= d_end D 0 n t < zlen CE) as De by (intros t; apply (D1 0 n t); cbn; lia).
  rewrite chunks_cons in F by lia. subst bits. unfold dxt1_chunk. cbv zeta.
  destruct (next_encoding_ok m u D HG "Failed to decord DXT1 Texture" n cd _ ltac:(lia) F) as (cd1 & -> & F1). cbn [bind].
  destruct (tiles_ok (cut_of D n) (cut_range D n)) as (-> & Bt & tl & Et & _). cbn [bind].
  change (plane_nos [cp]) with [0] in F1. cbn [flat_map] in F1. rewrite app_nil_r in F1. rewrite E2.
  change (u_endpoint_dm0 u) with (dm_of u ColorEnd). change (plane_at [cp] 0) with cp in F1. change (pl_end cp) with ColorEnd in F1.
  destruct (tile_endpoints_ok m u "Failed to decord DXT1 Texture" ColorEnd CE (num_tiles (cut_of D n)) (end_sum 0 n) (d_end D 0 n) cd1 _ C1 ltac:(lia) De F1) as (cd2 & -> & F2). cbn [bind].
  rewrite Et. cbn [bind].
  assert (dxt1_inner n 0 (cs, cd2, dst)) as I0.
  { split; [rewrite zsum_0, Z.add_0_r; exact E3|split; [exact F2|rewrite Z.add_0_r; exact Fl]]. }
  pose proof (x_bounds W H faces 8 HW HH HF ltac:(lia) HS HP f x y Hf Hx Hy) as (XB & _ & _).
  assert (-1 <= loop_reach m H 8) as LR by (unfold loop_reach; destruct m, (Z.odd (chunk_rows H)); lia).
  assert (forall dy dx, 0 <= dy < 2 -> 0 <= dx < 2 ->
    4 * (Z.shiftr (row_dst W H 8 f y + 2 * x * 8 + W * 8 * dy) 2 + 2 * dx) = block_no W H f x y (dx + dy * 2) * 8) as PD.
  { intros dy dx Hdy Hdx. rewrite <- (pd_ok 8 f x y (dx + dy * 2) ltac:(reflexivity)).
    replace (dx + dy * 2) with (2 * dy + dx) by ring. destruct (half_parts dy dx Hdx) as [-> ->]. rewrite shr_div by lia. change (2 ^ 2) with 4.
    f_equal. replace (dx * 8) with (2 * dx * 4) by ring. rewrite Z.div_add by lia. do 2 f_equal. ring. }
  assert (exists st', dxt1_inner n 4 st' /\
    (if negb (negb (2 * y + 1 <? H)) && negb (negb (2 * x + 1 <? W)) then
      (let* st := dxt1_full_block m u (tab 4 (fun t => if t <? num_tiles (cut_of D n) then znth CE ((end_sum 0 n + zsum (t + 1) (d_end D 0 n)) mod zlen CE) else 0)) tl 0 (Z.shiftr (row_dst W H 8 f y + 2 * x * 8) 2) (cs, cd2, dst) in
       let* st := dxt1_full_block m u (tab 4 (fun t => if t <? num_tiles (cut_of D n) then znth CE ((end_sum 0 n + zsum (t + 1) (d_end D 0 n)) mod zlen CE) else 0)) tl 1 (Z.shiftr (row_dst W H 8 f y + 2 * x * 8) 2 + 2) st in
       let* st := dxt1_full_block m u (tab 4 (fun t => if t <? num_tiles (cut_of D n) then znth CE ((end_sum 0 n + zsum (t + 1) (d_end D 0 n)) mod zlen CE) else 0)) tl 2 (Z.shiftr (row_dst W H 8 f y + 2 * x * 8) 2 + Z.shiftr (W * 8) 2) st in
       dxt1_full_block m u (tab 4 (fun t => if t <? num_tiles (cut_of D n) then znth CE ((end_sum 0 n + zsum (t + 1) (d_end D 0 n)) mod zlen CE) else 0)) tl 3 (Z.shiftr (row_dst W H 8 f y + 2 * x * 8) 2 + 2 + Z.shiftr (W * 8) 2) st) = Ok st'
    else
      for_range 0 2 (fun by_ st =>
        let* row := ua m 32 (W * 8 * by_) in
        let* pd := ua m 64 (row_dst W H 8 f y + 2 * x * 8 + row) in
        for_range 0 2 (fun bx st =>
          dxt1_part_block m u (tab 4 (fun t => if t <? num_tiles (cut_of D n) then znth CE ((end_sum 0 n + zsum (t + 1) (d_end D 0 n)) mod zlen CE) else 0)) tl
            (negb ((negb (bx =? 0) && negb (2 * x + 1 <? W)) || (negb (by_ =? 0) && negb (2 * y + 1 <? H))))
            (bx + by_ * 2) (Z.shiftr pd 2 + 2 * bx) st) st) (cs, cd2, dst) = Ok st')) as (st' & I4 & K).
  { destruct (Z.ltb_spec (2 * y + 1) H) as [Ly|Ly], (Z.ltb_spec (2 * x + 1) W) as [Lx|Lx]; cbn [negb andb].
    1: { pose proof (PD 0 0 ltac:(lia) ltac:(lia)) as P0. pose proof (PD 0 1 ltac:(lia) ltac:(lia)) as P1.
      pose proof (PD 1 0 ltac:(lia) ltac:(lia)) as P2. pose proof (PD 1 1 ltac:(lia) ltac:(lia)) as P3.
      change (0 + 0 * 2) with 0 in P0. change (1 + 0 * 2) with 1 in P1. change (0 + 1 * 2) with 2 in P2. change (1 + 1 * 2) with 3 in P3.
      replace (W * 8 * 0) with 0 in P0, P1 by ring. replace (W * 8 * 1) with (W * 8) in P2, P3 by ring.
      change (2 * 0) with 0 in P0, P2. change (2 * 1) with 2 in P1, P3. rewrite !Z.add_0_r in P0. rewrite Z.add_0_r in P1, P2.
      assert (Z.shiftr (row_dst W H 8 f y + 2 * x * 8 + W * 8) 2 = Z.shiftr (row_dst W H 8 f y + 2 * x * 8) 2 + Z.shiftr (W * 8) 2) as SA.
      { rewrite !shr_div by lia. change (2 ^ 2) with 4. replace (W * 8) with (W * 2 * 4) by ring. rewrite Z.div_add, Z.div_mul by lia. reflexivity. }
      rewrite SA in P2, P3.
      destruct (dxt1_block_ok f x y 0 _ n tl _ Hf Hx Hy ltac:(lia) En Et P0 I0) as (st1 & _ & T1 & I1).
      destruct (dxt1_block_ok f x y 1 _ n tl _ Hf Hx Hy ltac:(lia) En Et P1 I1) as (st2 & _ & T2 & I2).
      destruct (dxt1_block_ok f x y 2 _ n tl _ Hf Hx Hy ltac:(lia) En Et P2 I2) as (st3 & _ & T3 & I3).
      destruct (dxt1_block_ok f x y 3 _ n tl _ Hf Hx Hy ltac:(lia) En Et P3 I3) as (st4 & _ & T4 & I4).
      exists st4. split; [exact I4|].
      rewrite T1 by (apply inside_all; lia). cbn [bind]. rewrite T2 by (apply inside_all; lia). cbn [bind].
      rewrite T3 by (apply inside_all; lia). cbn [bind].
      replace (Z.shiftr (row_dst W H 8 f y + 2 * x * 8) 2 + 2 + Z.shiftr (W * 8) 2) with (Z.shiftr (row_dst W H 8 f y + 2 * x * 8) 2 + Z.shiftr (W * 8) 2 + 2) by ring.
      apply T4. apply inside_all; lia. }
    all: match goal with |- exists st', _ /\ for_range 0 2 ?g ?s = _ =>
      destruct (for_range_inv (fun by_ st => dxt1_inner n (by_ * 2) st) 0 2 g s) as (st' & E & Q); [lia|exact I0| |exists st'; split; [exact Q|exact E]] end.
    all: intros dy st Hdy Is; assert (0 <= W * 8 * dy <= W * 8) as WD by nia;
      rewrite ua_ok by lia; cbn [bind]; rewrite ua_ok by lia; cbn [bind].
    all: match goal with |- exists st', for_range 0 2 ?g ?s = _ /\ _ =>
      destruct (for_range_inv (fun bx st => dxt1_inner n (bx + dy * 2) st) 0 2 g s) as (st2 & E & Q);
        [lia|exact Is| |exists st2; split; [exact E|replace ((dy + 1) * 2) with (2 + dy * 2) by ring; exact Q]] end.
    all: clear st Is; intros dx st Hdx Is; cbv beta;
      destruct (dxt1_block_ok f x y (dx + dy * 2) _ n tl st Hf Hx Hy ltac:(lia) En Et (PD dy dx Hdy Hdx) Is) as (st3 & T & _ & I3);
      exists st3; (split; [|replace (dx + 1 + dy * 2) with (dx + dy * 2 + 1) by ring; exact I3]);
      rewrite <- T; f_equal; unfold inside; replace (dx + dy * 2) with (2 * dy + dx) by ring; destruct (half_parts dy dx Hdx) as [-> ->];
      pose proof (cols_bounds W HW) as CB; pose proof (rows_bounds H HH) as RB;
      destruct (Z.eqb_spec dx 0), (Z.eqb_spec dy 0), (Z.ltb_spec (2 * x + dx) W), (Z.ltb_spec (2 * y + dy) H); try lia; reflexivity. }
  destruct st' as [[cs' cd'] dst']. destruct I4 as (Q1 & Q2 & Q3).
  exists (bits_at D (n + 1), (end_sum 0 n + zsum (num_tiles (cut_of D n)) (d_end D 0 n)) mod zlen CE, cs', cd', dst').
  split.
  - destruct (negb (negb (2 * y + 1 <? H)) && negb (negb (2 * x + 1 <? W))).
    + match type of K with bind ?a ?k = _ => destruct a as [st1| |]; cbn [bind] in K |- *; try discriminate end.
      match type of K with bind ?a ?k = _ => destruct a as [st2| |]; cbn [bind] in K |- *; try discriminate end.
      match type of K with bind ?a ?k = _ => destruct a as [st3| |]; cbn [bind] in K |- *; try discriminate end.
      rewrite K. reflexivity.
    + rewrite K. reflexivity.
  - unfold dxt1_rel, end_sum, sel_sum. rewrite !zsum_snoc by lia.
    split; [reflexivity|split; [reflexivity|split; [exact Q1|split; [exact Q2|]]]].
    replace (4 * (n + 1)) with (4 * n + 4) by lia. exact Q3.
Qed.

Lemma unpack_dxt1_ok cd dst : h_faces (u_header u) = faces -> feeds cd (level_symbols [cp] D W H faces) ->
  zlen dst = faces * H * W * 8 -> unpack_dxt1 m u cd dst (W * 8) W H cc cr = Ok (level_blocks [cp] D W H faces).
Proof.
  intros Ef F L. unfold unpack_dxt1. rewrite Ef.
  destruct (chunk_loops_ok W H faces 8 HW HH HF ltac:(lia) HS HP m dxt1_rel (dxt1_chunk m u (W * 8)) (1, 0, 0, cd, dst) HL)
    as ([[[[bits ae] al] cd'] dst'] & -> & Q).
  - split; [reflexivity|split; [reflexivity|split; [reflexivity|split; [exact F|]]]]. apply fill_start; auto; lia.
  - intros f x y st Hf Hx Hy. apply dxt1_chunk_ok; auto.
  - cbn [bind]. f_equal. destruct Q as (_ & _ & _ & _ & Q).
    exact (fill_end W H faces 8 (expect [cp]) HW HH HF ltac:(lia) (fun q _ => expect_len1 q) dst' Q).
Qed.
End Dxt1.
End Formats.
