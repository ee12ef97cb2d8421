(** * Proofs about the order in which the blocks of a level are written. *)
From Verif Require Import Base BaseLemmas ModelCrn ModelCrunch SpecCrn SpecCrnLevel.

(** ** Overwriting a piece of a list *)
Definition put (l : list Z) (o : Z) (a : list Z) : list Z :=
  firstn (Z.to_nat o) l ++ a ++ skipn (Z.to_nat o + length a) l.
Lemma zlen_put l o a : 0 <= o -> o + zlen a <= zlen l -> zlen (put l o a) = zlen l.
Proof.
  intros Ho H. unfold put. rewrite !zlen_app, zlen_firstn, zlen_skipn. unfold zlen in *. lia.
Qed.
Lemma znth_put l o a i : 0 <= o -> o + zlen a <= zlen l -> 0 <= i ->
  znth (put l o a) i = if (o <=? i) && (i <? o + zlen a) then znth a (i - o) else znth l i.
Proof.
  intros Ho H Hi. unfold put. pose proof (zlen_nonneg a) as Ha.
  assert (zlen (firstn (Z.to_nat o) l) = o) as Lf by (rewrite zlen_firstn; lia).
  destruct (Z.leb_spec o i); cbn [andb].
  - rewrite znth_app2 by lia. rewrite Lf. destruct (Z.ltb_spec i (o + zlen a)).
    + rewrite znth_app1 by lia. reflexivity.
    + rewrite znth_app2 by lia. rewrite znth_skipn by lia. f_equal. unfold zlen in *. lia.
  - rewrite znth_app1 by lia. rewrite znth_firstn by lia. reflexivity.
Qed.
Lemma put_put l o a b : 0 <= o -> o + zlen a + zlen b <= zlen l ->
  put (put l o a) (o + zlen a) b = put l o (a ++ b).
Proof.
  intros Ho H. pose proof (zlen_nonneg a) as Ha. pose proof (zlen_nonneg b) as Hb.
  assert (zlen (a ++ b) = zlen a + zlen b) as Lab by apply zlen_app.
  apply znth_ext.
  - rewrite !zlen_put by (rewrite ?zlen_put; lia). reflexivity.
  - intros i Hi. rewrite !zlen_put in Hi by (rewrite ?zlen_put; lia).
    rewrite znth_put by (rewrite ?zlen_put; lia). rewrite znth_put by lia. rewrite (znth_put l o (a ++ b)) by lia.
    rewrite Lab.
    destruct (Z.leb_spec (o + zlen a) i), (Z.ltb_spec i (o + zlen a + zlen b)), (Z.leb_spec o i),
      (Z.ltb_spec i (o + zlen a)), (Z.ltb_spec i (o + (zlen a + zlen b))); try lia; cbn [andb]; try reflexivity.
    + rewrite znth_app2 by lia. f_equal. lia.
    + rewrite znth_app1 by lia. reflexivity.
Qed.

Lemma zlen_le n v : 0 <= n -> zlen (le n v) = n.
Proof. intros. unfold le. fold (tab n (fun i => v / 256 ^ i mod 256)). rewrite zlen_tab. lia. Qed.

Lemma write_int_ok m dst i v : 0 <= i -> 4 * i + 4 <= zlen dst -> zlen dst < 2 ^ 63 ->
  write_int m dst i v = Ok (put dst (4 * i) (le 4 v)).
Proof.
  intros Hi Hl Hz. unfold write_int. rewrite ua_ok by lia. cbn [bind]. replace (i * 4) with (4 * i) by lia.
  rewrite upd_ok by lia. cbn [bind]. rewrite upd_ok by (rewrite zlen_replace_nth; lia). cbn [bind].
  rewrite upd_ok by (rewrite !zlen_replace_nth; lia). cbn [bind]. rewrite upd_ok by (rewrite !zlen_replace_nth; lia).
  enough (replace_nth (Z.to_nat (4 * i + 3)) (u8 (Z.shiftr v 24))
     (replace_nth (Z.to_nat (4 * i + 2)) (u8 (Z.shiftr v 16))
        (replace_nth (Z.to_nat (4 * i + 1)) (u8 (Z.shiftr v 8)) (replace_nth (Z.to_nat (4 * i)) (u8 v) dst))) =
     put dst (4 * i) (le 4 v)) as -> by reflexivity.
  assert (zlen (le 4 v) = 4) as L4 by (apply zlen_le; lia).
  apply znth_ext; [rewrite zlen_put by lia; rewrite !zlen_replace_nth; reflexivity|].
  intros j Hj. rewrite !zlen_replace_nth in Hj. rewrite znth_put by lia. rewrite L4.
  rewrite !znth_replace by (rewrite ?zlen_replace_nth; lia).
  assert (forall k, 0 <= k < 4 -> znth (le 4 v) k = v / 256 ^ k mod 256) as N.
  { intros k Hk. unfold le. fold (tab 4 (fun i => v / 256 ^ i mod 256)). rewrite znth_tab by lia. reflexivity. }
  destruct (Z.eqb_spec j (4 * i + 3)) as [->|]; [|destruct (Z.eqb_spec j (4 * i + 2)) as [->|]; [|destruct (Z.eqb_spec j (4 * i + 1)) as [->|]; [|destruct (Z.eqb_spec j (4 * i)) as [->|]]]].
  5: { destruct (Z.leb_spec (4 * i) j), (Z.ltb_spec j (4 * i + 4)); try lia; reflexivity. }
  all: destruct (Z.leb_spec (4 * i) (4 * i + 3)), (Z.leb_spec (4 * i) (4 * i + 2)), (Z.leb_spec (4 * i) (4 * i + 1)), (Z.leb_spec (4 * i) (4 * i)); try lia.
  - destruct (Z.ltb_spec (4 * i + 3) (4 * i + 4)); [|lia]. cbn [andb]. replace (4 * i + 3 - 4 * i) with 3 by lia. rewrite N by lia. unfold u8. rewrite shr_div by lia. reflexivity.
  - destruct (Z.ltb_spec (4 * i + 2) (4 * i + 4)); [|lia]. cbn [andb]. replace (4 * i + 2 - 4 * i) with 2 by lia. rewrite N by lia. unfold u8. rewrite shr_div by lia. reflexivity.
  - destruct (Z.ltb_spec (4 * i + 1) (4 * i + 4)); [|lia]. cbn [andb]. replace (4 * i + 1 - 4 * i) with 1 by lia. rewrite N by lia. unfold u8. rewrite shr_div by lia. reflexivity.
  - destruct (Z.ltb_spec (4 * i) (4 * i + 4)); [|lia]. cbn [andb]. replace (4 * i - 4 * i) with 0 by lia. rewrite N by lia. unfold u8. change (256 ^ 0) with 1. rewrite Z.div_1_r. reflexivity.
Qed.

(** ** Pieces of equal length *)
Lemma zlen_flat_map L (g : Z -> list Z) n : 0 <= n -> (forall q, 0 <= q < n -> zlen (g q) = L) ->
  zlen (flat_map g (zrange 0 n)) = n * L.
Proof.
  intros Hn. pattern n. apply natlike_ind; [| |exact Hn]; clear n Hn.
  - reflexivity.
  - intros n Hn IH G. unfold Z.succ. rewrite zrange_snoc by lia. rewrite flat_map_app, zlen_app, IH by (intros; apply G; lia).
    cbn [flat_map]. rewrite app_nil_r, G by lia. lia.
Qed.
Lemma znth_flat_map L (g : Z -> list Z) n i : 0 <= n -> 0 < L -> (forall q, 0 <= q < n -> zlen (g q) = L) ->
  0 <= i < n * L -> znth (flat_map g (zrange 0 n)) i = znth (g (i / L)) (i mod L).
Proof.
  intros Hn HL. revert i. pattern n. apply natlike_ind; [| |exact Hn]; clear n Hn.
  - intros. lia.
  - intros n Hn IH i G Hi. unfold Z.succ in *. rewrite zrange_snoc by lia. rewrite flat_map_app. cbn [flat_map]. rewrite app_nil_r.
    assert (zlen (flat_map g (zrange 0 n)) = n * L) as Ln by (apply zlen_flat_map; [lia|intros; apply G; lia]).
    destruct (Z.lt_ge_cases i (n * L)) as [Lt|Ge].
    + rewrite znth_app1 by lia. apply IH; [intros; apply G; lia|lia].
    + rewrite znth_app2 by lia. rewrite Ln.
      assert (i / L = n) as -> by (symmetry; apply Z.div_unique with (i - n * L); lia).
      f_equal. apply Z.mod_unique with n; lia.
Qed.

(** ** Order of the blocks *)
Section Grid.
Context (W H faces bpb : Z) (expected : Z -> list Z).
Hypothesis HW : 1 <= W.
Hypothesis HH : 1 <= H.
Hypothesis HF : 1 <= faces.
Hypothesis HB : 1 <= bpb.
Notation cc := (chunk_cols W).
Notation cr := (chunk_rows H).

Lemma cols_bounds : 1 <= cc /\ 2 * cc - 1 <= W <= 2 * cc.
Proof. unfold chunk_cols. pose proof (Z.div_mod (W + 1) 2 ltac:(lia)). pose proof (Z.mod_pos_bound (W + 1) 2 ltac:(lia)). lia. Qed.
Lemma rows_bounds : 1 <= cr /\ 2 * cr - 1 <= H <= 2 * cr.
Proof. unfold chunk_rows. pose proof (Z.div_mod (H + 1) 2 ltac:(lia)). pose proof (Z.mod_pos_bound (H + 1) 2 ltac:(lia)). lia. Qed.

(** Number of block [q] in the order of the file. *)
Definition place_no (q : Z) : Z :=
  4 * chunk_no W H (q / W / H) ((q mod W) / 2) (((q / W) mod H) / 2) + ((q mod W) mod 2 + 2 * (((q / W) mod H) mod 2)).

(** Block [k] of chunk [x], [y] of face [f]. *)
Definition inside (x y k : Z) : bool := (2 * x + k mod 2 <? W) && (2 * y + k / 2 <? H).
Definition block_no (f x y k : Z) : Z := (f * H + 2 * y + k / 2) * W + 2 * x + k mod 2.

Lemma block_no_coords f x y k : 0 <= f -> 0 <= x -> 0 <= y -> 0 <= k < 4 -> inside x y k = true ->
  block_no f x y k / W = f * H + 2 * y + k / 2 /\ block_no f x y k mod W = 2 * x + k mod 2 /\
  block_no f x y k / W / H = f /\ (block_no f x y k / W) mod H = 2 * y + k / 2.
Proof.
  intros Hf Hx Hy Hk I. apply andb_prop in I as [I1 I2]. apply Z.ltb_lt in I1, I2.
  pose proof (Z.mod_pos_bound k 2 ltac:(lia)) as Rk. pose proof (Z.div_pos k 2 ltac:(lia) ltac:(lia)) as Rk2.
  assert (block_no f x y k / W = f * H + 2 * y + k / 2) as E.
  { symmetry. apply Z.div_unique with (2 * x + k mod 2); [lia|unfold block_no; ring]. }
  rewrite E. split; [reflexivity|]. split; [|split].
  - symmetry. apply Z.mod_unique with (f * H + 2 * y + k / 2); [lia|unfold block_no; ring].
  - symmetry. apply Z.div_unique with (2 * y + k / 2); [lia|ring].
  - symmetry. apply Z.mod_unique with f; [lia|ring].
Qed.
Lemma block_no_range f x y k : 0 <= f < faces -> 0 <= x -> 0 <= y -> 0 <= k < 4 -> inside x y k = true ->
  0 <= block_no f x y k < faces * H * W.
Proof.
  intros Hf Hx Hy Hk I. apply andb_prop in I as [I1 I2]. apply Z.ltb_lt in I1, I2.
  pose proof (Z.mod_pos_bound k 2 ltac:(lia)) as Rk. pose proof (Z.div_pos k 2 ltac:(lia) ltac:(lia)) as Rk2.
  unfold block_no. assert (0 <= f * H) by nia. split; [nia|].
  assert (f * H + 2 * y + k / 2 + 1 <= faces * H) by nia. nia.
Qed.

Lemma half_parts a d : 0 <= d < 2 -> (2 * a + d) / 2 = a /\ (2 * a + d) mod 2 = d.
Proof. intros. split; [symmetry; apply Z.div_unique with d; lia|symmetry; apply Z.mod_unique with a; lia]. Qed.

Lemma k_div k : 0 <= k < 4 -> 0 <= k / 2 < 2 /\ 0 <= k mod 2 < 2 /\ k = 2 * (k / 2) + k mod 2.
Proof.
  intros Hk. pose proof (Z.div_mod k 2 ltac:(lia)). pose proof (Z.mod_pos_bound k 2 ltac:(lia)). lia.
Qed.

Lemma place_no_block f x y k : 0 <= f -> 0 <= x -> 0 <= y -> 0 <= k < 4 -> inside x y k = true ->
  place_no (block_no f x y k) = 4 * chunk_no W H f x y + k.
Proof.
  intros Hf Hx Hy Hk I. destruct (block_no_coords f x y k Hf Hx Hy Hk I) as (_ & E2 & E3 & E4).
  destruct (k_div k Hk) as (K1 & K2 & K3).
  unfold place_no. rewrite E2, E3, E4. destruct (half_parts x (k mod 2) K2) as [-> ->]. destruct (half_parts y (k / 2) K1) as [-> ->]. lia.
Qed.

Lemma radix a b c d n : 0 <= b < n -> 0 <= d < n -> a * n + b = c * n + d -> a = c /\ b = d.
Proof.
  intros. assert (a = c) as ->; [|split; lia].
  transitivity ((a * n + b) / n); [symmetry; rewrite Z.div_add_l, Z.div_small by lia; lia|].
  rewrite H2, Z.div_add_l, Z.div_small by lia. lia.
Qed.
Lemma serp_range y x : 0 <= x < cc -> 0 <= (if Z.odd y then cc - 1 - x else x) < cc.
Proof. destruct (Z.odd y); lia. Qed.

Lemma place_no_inj q f x y k : 0 <= q < faces * H * W -> 0 <= f -> 0 <= x < cc -> 0 <= y < cr -> 0 <= k < 4 ->
  place_no q = 4 * chunk_no W H f x y + k -> inside x y k = true /\ q = block_no f x y k.
Proof.
  intros Hq Hf Hx Hy Hk E. pose proof cols_bounds as CB. pose proof rows_bounds as RB.
  destruct (k_div k Hk) as (K1 & K2 & K3).
  pose proof (Z.div_mod q W ltac:(lia)) as Q1. pose proof (Z.mod_pos_bound q W ltac:(lia)) as Q2.
  set (R := q / W) in *. set (X := q mod W) in *.
  pose proof (Z.div_mod R H ltac:(lia)) as R1. pose proof (Z.mod_pos_bound R H ltac:(lia)) as R2.
  set (F := R / H) in *. set (Y := R mod H) in *.
  pose proof (Z.div_mod X 2 ltac:(lia)) as X1. pose proof (Z.mod_pos_bound X 2 ltac:(lia)) as X2.
  pose proof (Z.div_mod Y 2 ltac:(lia)) as Y1. pose proof (Z.mod_pos_bound Y 2 ltac:(lia)) as Y2.
  unfold place_no in E. fold R X in E. fold F Y in E.
  assert (chunk_no W H F (X / 2) (Y / 2) = chunk_no W H f x y /\ X mod 2 + 2 * (Y mod 2) = k) as [EN EK].
  { apply (radix _ _ _ _ 4); lia. }
  unfold chunk_no in EN.
  pose proof (serp_range (Y / 2) (X / 2) ltac:(lia)) as S1. pose proof (serp_range y x Hx) as S2.
  apply radix in EN as [EN1 EN2]; [|exact S1|exact S2].
  apply radix in EN1 as [EF EY]; [|lia|lia].
  rewrite EY in EN2. assert (X / 2 = x) as EX by (destruct (Z.odd y); lia).
  assert (X mod 2 = k mod 2 /\ Y mod 2 = k / 2) as [KX KY] by lia.
  assert (X = 2 * x + k mod 2) as XX by lia. assert (Y = 2 * y + k / 2) as YY by lia.
  split.
  - unfold inside. apply andb_true_intro. split; apply Z.ltb_lt; lia.
  - unfold block_no. rewrite Q1, R1, EF, YY, XX. ring.
Qed.

Definition filled_to (j : Z) (dst : list Z) : Prop :=
  zlen dst = faces * H * W * bpb /\
  forall i, 0 <= i < faces * H * W * bpb -> place_no (i / bpb) < j -> znth dst i = znth (expected (i / bpb)) (i mod bpb).

Hypothesis HE : forall q, 0 <= q < faces * H * W -> zlen (expected q) = bpb.

Lemma byte_block i : 0 <= i < faces * H * W * bpb -> 0 <= i / bpb < faces * H * W.
Proof. intros Hi. split; [apply Z.div_pos; lia|apply Z.div_lt_upper_bound; lia]. Qed.

Lemma fill_visible f x y k dst : 0 <= f < faces -> 0 <= x < cc -> 0 <= y < cr -> 0 <= k < 4 -> inside x y k = true ->
  filled_to (4 * chunk_no W H f x y + k) dst ->
  filled_to (4 * chunk_no W H f x y + k + 1) (put dst (block_no f x y k * bpb) (expected (block_no f x y k))).
Proof.
  intros Hf Hx Hy Hk I [L F]. pose proof (block_no_range f x y k Hf ltac:(lia) ltac:(lia) Hk I) as R.
  set (q := block_no f x y k) in *. pose proof (HE q R) as LE.
  assert (q * bpb + bpb <= faces * H * W * bpb) as Fit by nia.
  split; [rewrite zlen_put by nia; exact L|].
  intros i Hi P. rewrite znth_put by nia. rewrite LE. pose proof (byte_block i Hi) as Rq.
  pose proof (Z.div_mod i bpb ltac:(lia)) as DM. pose proof (Z.mod_pos_bound i bpb ltac:(lia)) as MB.
  destruct (Z.eq_dec (i / bpb) q) as [E|E].
  - rewrite E in *. destruct (Z.leb_spec (q * bpb) i); [|lia]. destruct (Z.ltb_spec i (q * bpb + bpb)); [|lia]. cbn [andb]. f_equal. lia.
  - replace ((q * bpb <=? i) && (i <? q * bpb + bpb)) with false.
    2: { symmetry. apply andb_false_iff. destruct (Z.lt_trichotomy (i / bpb) q) as [T|[T|T]]; [left|contradiction|right].
         - apply Z.leb_gt. nia. - apply Z.ltb_ge. nia. }
    apply F; [exact Hi|]. destruct (Z.eq_dec (place_no (i / bpb)) (4 * chunk_no W H f x y + k)) as [E2|]; [|lia].
    destruct (place_no_inj (i / bpb) f x y k Rq ltac:(lia) Hx Hy Hk E2) as [_ E3]. contradiction.
Qed.
Lemma fill_hidden f x y k dst : 0 <= f < faces -> 0 <= x < cc -> 0 <= y < cr -> 0 <= k < 4 -> inside x y k = false ->
  filled_to (4 * chunk_no W H f x y + k) dst -> filled_to (4 * chunk_no W H f x y + k + 1) dst.
Proof.
  intros Hf Hx Hy Hk I [L F]. split; [exact L|]. intros i Hi P. apply F; [exact Hi|].
  pose proof (byte_block i Hi) as Rq.
  destruct (Z.eq_dec (place_no (i / bpb)) (4 * chunk_no W H f x y + k)) as [E2|]; [|lia].
  destruct (place_no_inj (i / bpb) f x y k Rq ltac:(lia) Hx Hy Hk E2) as [E3 _]. congruence.
Qed.
Lemma fill_start dst : zlen dst = faces * H * W * bpb -> filled_to 0 dst.
Proof.
  intros L. split; [exact L|]. intros i Hi P. exfalso. pose proof (byte_block i Hi) as Rq.
  pose proof cols_bounds as CB. pose proof rows_bounds as RB.
  unfold place_no in P. set (q := i / bpb) in *.
  pose proof (Z.mod_pos_bound q W ltac:(lia)) as Q2. pose proof (Z.div_pos q W ltac:(lia) ltac:(lia)) as Q3.
  pose proof (Z.mod_pos_bound (q / W) H ltac:(lia)) as R2. pose proof (Z.div_pos (q / W) H ltac:(lia) ltac:(lia)) as R3.
  pose proof (Z.mod_pos_bound (q mod W) 2 ltac:(lia)). pose proof (Z.mod_pos_bound ((q / W) mod H) 2 ltac:(lia)).
  unfold chunk_no in P.
  assert (0 <= q mod W / 2 < cc) as SX.
  { pose proof (Z.div_mod (q mod W) 2 ltac:(lia)). lia. }
  pose proof (serp_range (((q / W) mod H) / 2) (q mod W / 2) SX) as S1.
  assert (0 <= (q / W) mod H / 2) by (apply Z.div_pos; lia).
  assert (0 <= (q / W / H * cr + (q / W) mod H / 2) * cc) by nia. lia.
Qed.
Lemma fill_end dst : filled_to (4 * num_chunks W H faces) dst -> dst = flat_map expected (zrange 0 (faces * H * W)).
Proof.
  intros [L F]. assert (0 <= faces * H * W) as Hn by nia.
  pose proof (zlen_flat_map bpb expected (faces * H * W) Hn HE) as LE.
  apply znth_ext; [congruence|]. intros i Hi. rewrite L in Hi.
  rewrite (znth_flat_map bpb) by (auto; lia). apply F; [exact Hi|].
  pose proof (byte_block i Hi) as Rq. set (q := i / bpb) in *. unfold place_no.
  pose proof cols_bounds as CB. pose proof rows_bounds as RB.
  pose proof (Z.div_mod q W ltac:(lia)) as Q1. pose proof (Z.mod_pos_bound q W ltac:(lia)) as Q2.
  set (R := q / W) in *. set (X := q mod W) in *.
  pose proof (Z.div_mod R H ltac:(lia)) as R1. pose proof (Z.mod_pos_bound R H ltac:(lia)) as R2.
  set (G := R / H) in *. set (Y := R mod H) in *.
  pose proof (Z.div_mod X 2 ltac:(lia)) as X1. pose proof (Z.mod_pos_bound X 2 ltac:(lia)) as X2.
  pose proof (Z.div_mod Y 2 ltac:(lia)) as Y1. pose proof (Z.mod_pos_bound Y 2 ltac:(lia)) as Y2.
  assert (R < faces * H) as BR by nia. assert (G < faces) as BG by nia.
  pose proof (serp_range (Y / 2) (X / 2) ltac:(lia)) as S1. unfold chunk_no, num_chunks.
  set (s := if Z.odd (Y / 2) then _ else _) in *.
  assert (G * cr + Y / 2 + 1 <= faces * cr) by nia.
  assert ((G * cr + Y / 2) * cc + s + 1 <= faces * cr * cc) by nia. lia.
Qed.

(** ** The loops over faces, rows and chunks *)
Hypothesis HS : faces = 1 \/ H mod 2 = 0.
Hypothesis HP : W * bpb < 2 ^ 20.
Notation pitch := (W * bpb).
Notation last := (last_chunk W H faces bpb).

Lemma face_rows f : 0 <= f < faces -> f * (2 * cr) = f * H.
Proof.
  intros Hf. destruct HS as [E|E]; [assert (f = 0) as -> by lia; reflexivity|].
  unfold chunk_rows. pose proof (Z.div_mod H 2 ltac:(lia)). 
  assert ((H + 1) / 2 = H / 2) as -> by (symmetry; apply Z.div_unique with 1; lia). nia.
Qed.

Lemma land_1_odd a : (Z.land a 1 =? 1) = Z.odd a.
Proof.
  change 1 with (Z.ones 1) at 1. rewrite Z.land_ones by lia. change (2 ^ 1) with 2. rewrite Zmod_odd. destruct (Z.odd a); reflexivity.
Qed.
Lemma swrap_small x : - 2 ^ 31 <= x < 2 ^ 31 -> swrap 32 x = x.
Proof.
  intros Hx. unfold swrap. destruct (Z.lt_ge_cases x 0) as [L|L].
  - assert (x mod 2 ^ 32 = x + 2 ^ 32) as -> by (symmetry; apply Z.mod_unique with (-1); lia).
    destruct (Z.ltb_spec (x + 2 ^ 32) (2 ^ (32 - 1))); lia.
  - rewrite Z.mod_small by lia. destruct (Z.ltb_spec x (2 ^ (32 - 1))); lia.
Qed.

Lemma ia_total w x : exists v, ia Wrapping w x = Ok v.
Proof. unfold ia. destruct (_ && _); eauto. Qed.

Lemma serp_list y : (if Z.odd y then rev (zrange 0 cc) else zrange 0 cc) =
  map (fun i => if Z.odd y then cc - 1 - i else i) (zrange 0 cc).
Proof.
  pose proof cols_bounds as [CB _]. destruct (Z.odd y).
  - clear CB. assert (forall n, 0 <= n -> forall c, rev (zrange c (c + n)) = map (fun i => c + n - 1 - i) (zrange 0 n)) as K.
    { intros n Hn. pattern n. apply natlike_ind; [| |exact Hn]; clear n Hn.
      - intros c. rewrite !zrange_nil by lia. reflexivity.
      - intros n Hn IH c. unfold Z.succ. rewrite (zrange_cons c) by lia. cbn [rev].
        replace (c + (n + 1)) with ((c + 1) + n) by lia. rewrite IH. rewrite zrange_snoc by lia. rewrite map_app. cbn [map].
        f_equal. f_equal. lia. }
    pose proof cols_bounds as [CB _]. specialize (K cc ltac:(lia) 0). rewrite Z.add_0_l in K. exact K.
  - rewrite map_id. reflexivity.
Qed.
Lemma for_list_map {A B S} (g : A -> B) l (f : B -> S -> res S) : forall s, for_list (map g l) f s = for_list l (fun a => f (g a)) s.
Proof. induction l as [|a l IH]; intros s; [reflexivity|]. cbn [map for_list]. destruct (f (g a) s); cbn [bind]; auto. Qed.

Definition row_dst (f y : Z) : Z := (f * H + 2 * y) * pitch.

Lemma row_no f y : 0 <= f < faces -> row_dst f y = (f * cr + y) * (2 * pitch).
Proof. intros Hf. unfold row_dst. rewrite <- face_rows by exact Hf. ring. Qed.

Lemma x_bounds f x y : 0 <= f < faces -> 0 <= x < cc -> 0 <= y < cr ->
  0 <= row_dst f y + 2 * x * bpb <= last /\ 2 * cc * bpb <= 2 * pitch /\
  (f * cr + y = faces * cr - 1 \/ row_dst f y + 2 * x * bpb + 2 * bpb <= last).
Proof.
  intros Hf Hx Hy. pose proof cols_bounds as CB. pose proof rows_bounds as RB. rewrite row_no by exact Hf. unfold last_chunk.
  assert (0 <= f * cr) as B1 by nia. assert (f * cr + y <= faces * cr - 1) as B2 by nia.
  assert (0 <= pitch) as PP by nia. assert (0 <= x * bpb /\ x * bpb <= (cc - 1) * bpb) as [X1 X2] by nia.
  assert (0 <= (f * cr + y) * pitch) as B3 by (apply Z.mul_nonneg_nonneg; lia).
  assert ((f * cr + y) * pitch <= (faces * cr - 1) * pitch) as B4 by (apply Z.mul_le_mono_nonneg_r; lia).
  assert (cc * bpb <= pitch) as B5 by (apply Z.mul_le_mono_nonneg_r; lia).
  split; [lia|]. split; [lia|]. destruct (Z.eq_dec (f * cr + y) (faces * cr - 1)) as [E|E]; [left; exact E|right].
  assert ((f * cr + y) * pitch <= (faces * cr - 2) * pitch) as B6 by (apply Z.mul_le_mono_nonneg_r; lia). lia.
Qed.

Lemma chunk_loops_ok {S} m (Rel : Z -> S -> Prop) (body : bool -> bool -> Z -> S -> res S) st0 :
  last + loop_reach m H bpb < 2 ^ 31 -> Rel 0 st0 ->
  (forall f x y st, 0 <= f < faces -> 0 <= x < cc -> 0 <= y < cr -> Rel (chunk_no W H f x y) st ->
    exists st', body (negb (2 * x + 1 <? W)) (negb (2 * y + 1 <? H)) (row_dst f y + 2 * x * bpb) st = Ok st' /\
      Rel (chunk_no W H f x y + 1) st') ->
  exists st', chunk_loops m bpb pitch W H cc cr faces body st0 = Ok st' /\ Rel (num_chunks W H faces) st'.
Proof.
  intros HL R0 Step. pose proof cols_bounds as CB. pose proof rows_bounds as RB. unfold chunk_loops.
  assert (-1 <= loop_reach m H bpb) as LR by (unfold loop_reach; destruct m, (Z.odd cr); lia).
  assert (W <= pitch) as WP by nia. assert (swrap 32 cc = cc) as SW by (apply swrap_small; lia). rewrite SW.
  assert (bpb <= pitch) as BP by nia. assert (0 <= cc * bpb <= pitch) as CP by (split; [nia|apply Z.mul_le_mono_nonneg_r; lia]).
  match goal with |- exists s', bind (for_range 0 faces ?g ?s) _ = _ /\ _ =>
    destruct (for_range_inv (fun f (st : Z * S) => fst st = f * (2 * cr) * pitch /\ Rel (f * cr * cc) (snd st)) 0 faces g s) as ([rd st'] & E & Q1 & Q2)
  end.
  - lia.
  - cbn [fst snd]. split; [ring|exact R0].
  - intros f [rd st] Hf [P1 P2]. cbn [fst snd] in P1, P2.
    match goal with |- exists s', for_range 0 cr ?g ?s = _ /\ _ =>
      destruct (for_range_inv (fun y (st : Z * S) => fst st = row_dst f y /\ Rel ((f * cr + y) * cc) (snd st)) 0 cr g s) as ([rd' st'] & E & Q1 & Q2)
    end.
    + lia.
    + cbn [fst snd]. split.
      * rewrite P1. unfold row_dst. rewrite face_rows by lia. ring.
      * rewrite Z.add_0_r. exact P2.
    + clear rd st P1 P2. intros y [rd st] Hy [P1 P2]. cbn [fst snd] in P1, P2. subst rd. cbv zeta.
      rewrite !land_1_odd.
      assert ((y =? cr - 1) && Z.odd H = negb (2 * y + 1 <? H)) as ->.
      { unfold chunk_rows in *. pose proof (Zmod_odd H) as O. pose proof (Z.div_mod H 2 ltac:(lia)) as DM.
        destruct (Z.odd H).
        - assert ((H + 1) / 2 = H / 2 + 1) as E by (symmetry; apply Z.div_unique with 0; lia).
          destruct (Z.eqb_spec y ((H + 1) / 2 - 1)), (Z.ltb_spec (2 * y + 1) H); cbn [andb negb]; try reflexivity; lia.
        - assert ((H + 1) / 2 = H / 2) as E by (symmetry; apply Z.div_unique with 1; lia).
          rewrite andb_false_r. destruct (Z.ltb_spec (2 * y + 1) H); [reflexivity|lia]. }
      pose proof (x_bounds f (cc - 1) y Hf ltac:(lia) Hy) as XBl. pose proof (x_bounds f 0 y Hf ltac:(lia) Hy) as XBf.
      assert ((if Z.odd y then
            let* k := ia m 32 (cc - 1) in
            let* k := ia m 32 (k * bpb) in
            let* k := ia m 32 (k * 2) in
            ua m 64 (row_dst f y + u64 k)
          else Ok (row_dst f y)) = Ok (row_dst f y + 2 * (if Z.odd y then cc - 1 - 0 else 0) * bpb)) as ->.
      { destruct (Z.odd y); [|rewrite Z.mul_0_r, Z.mul_0_l, Z.add_0_r; reflexivity].
        assert (0 <= (cc - 1) * bpb) as G0 by (apply Z.mul_nonneg_nonneg; lia). assert ((cc - 1) * bpb < 2 ^ 20) as G1 by lia.
        rewrite ia_ok by lia. cbn [bind]. rewrite ia_ok by lia. cbn [bind]. rewrite ia_ok by lia. cbn [bind].
        unfold u64. rewrite Z.mod_small by lia. rewrite ua_ok by lia. f_equal. ring. }
      cbn [bind]. rewrite serp_list, for_list_map.
      match goal with |- exists s', bind (for_list (zrange 0 cc) ?g ?s) _ = _ /\ _ =>
        destruct (for_range_inv (fun i (st : Z * S) => (i < cc -> fst st = row_dst f y + 2 * (if Z.odd y then cc - 1 - i else i) * bpb) /\
          Rel ((f * cr + y) * cc + i) (snd st)) 0 cc g s) as ([bd' st'] & E & Q1 & Q2)
      end.
      * lia.
      * cbn [fst snd]. rewrite Z.add_0_r. split; [intros _; reflexivity|exact P2].
      * clear st P2. intros i [bd st] Hi [P1 P2]. cbn [fst snd] in P1, P2. rewrite P1 by lia. clear bd P1.
        set (x := if Z.odd y then cc - 1 - i else i) in *.
        assert (0 <= x < cc) as Hx by (unfold x; destruct (Z.odd y); lia).
        assert (chunk_no W H f x y = (f * cr + y) * cc + i) as EN.
        { unfold chunk_no, x. destruct (Z.odd y); lia. }
        assert (Z.odd W && (x =? cc - 1) = negb (2 * x + 1 <? W)) as ->.
        { clearbody x. unfold chunk_cols in *. pose proof (Zmod_odd W) as O. pose proof (Z.div_mod W 2 ltac:(lia)) as DM.
          destruct (Z.odd W).
          - assert ((W + 1) / 2 = W / 2 + 1) as E by (symmetry; apply Z.div_unique with 0; lia).
            destruct (Z.eqb_spec x ((W + 1) / 2 - 1)), (Z.ltb_spec (2 * x + 1) W); cbn [andb negb]; try reflexivity; lia.
          - assert ((W + 1) / 2 = W / 2) as E by (symmetry; apply Z.div_unique with 1; lia).
            cbn [andb]. destruct (Z.ltb_spec (2 * x + 1) W); [reflexivity|lia]. }
        rewrite <- EN in P2. destruct (Step f x y st Hf Hx Hy P2) as (st' & -> & R'). cbn [bind].
        pose proof (x_bounds f x y Hf Hx Hy) as (XB & _ & XR).
        set (nx := row_dst f y + 2 * x * bpb + (if Z.odd y then - bpb * 2 else bpb * 2)).
        assert (exists v, ia m 32 (swrap 32 (row_dst f y + 2 * x * bpb) + (if Z.odd y then - bpb * 2 else bpb * 2)) = Ok v /\ (i + 1 < cc -> u64 v = nx)) as (v & -> & Ev).
        { assert (f * cr + y = faces * cr - 1 -> y = cr - 1) as LY.
          { intros NR. assert (f <= faces - 1) as Lf by lia. assert (f = faces - 1) as Ef.
            { destruct (Z.eq_dec f (faces - 1)) as [Ef|Nf]; [exact Ef|]. assert ((f + 1) * cr <= (faces - 1) * cr) by (apply Z.mul_le_mono_nonneg_r; lia). lia. }
            rewrite Ef in NR. lia. }
          destruct (Z.lt_ge_cases (row_dst f y + 2 * x * bpb) (2 ^ 31)) as [Lp|Lp].
          2: { assert (y = cr - 1) as Ey by (destruct XR; [auto|lia]).
            unfold loop_reach in HL. destruct m; [destruct (Z.odd cr); lia|]. destruct (Z.odd cr) eqn:OC; [lia|].
            assert (Z.odd y = true) as OD by (rewrite Ey, Z.odd_sub, OC; reflexivity).
            assert (row_dst f y + 2 * x * bpb = 2 ^ 31) as EP by lia. unfold nx. rewrite OD, EP.
            change (swrap 32 (2 ^ 31)) with (- 2 ^ 31). unfold ia.
            destruct (Z.leb_spec (- 2 ^ (32 - 1)) (- 2 ^ 31 + - bpb * 2)); [lia|]. cbn [andb].
            eexists. split; [reflexivity|]. intros _. unfold swrap.
            assert ((- 2 ^ 31 + - bpb * 2) mod 2 ^ 32 = 2 ^ 31 - bpb * 2) as -> by (symmetry; apply Z.mod_unique with (-1); lia).
            destruct (Z.ltb_spec (2 ^ 31 - bpb * 2) (2 ^ (32 - 1))); [|lia]. unfold u64. rewrite Z.mod_small by lia. lia. }
          rewrite swrap_small by lia. fold nx.
          destruct (Z.lt_ge_cases nx (2 ^ 31)) as [Ln|Ln].
          - exists nx. split; [apply ia_ok; unfold nx in *; destruct (Z.odd y); lia|]. intros Hi'.
            unfold u64. apply Z.mod_small. unfold nx, x in *. destruct (Z.odd y); [|lia].
            pose proof (x_bounds f (cc - 1 - i - 1) y Hf ltac:(lia) Hy) as XB2. lia.
          - assert (Z.odd y = false) as OD by (unfold nx in Ln; destruct (Z.odd y); [lia|reflexivity]).
            assert (x = i) as EX by (unfold x; rewrite OD; reflexivity).
            assert (f * cr + y = faces * cr - 1 -> Z.odd cr = true) as OC.
            { intros NR. replace cr with (y + 1) by (rewrite (LY NR); ring). rewrite Z.odd_add, OD. reflexivity. }
            unfold nx in *. rewrite OD in *. unfold loop_reach in HL. destruct m.
            + exfalso. destruct XR as [XR|XR]; [rewrite (OC XR) in HL; lia|]. destruct (Z.odd cr); lia.
            + destruct (ia_total 32 (row_dst f y + 2 * x * bpb + bpb * 2)) as [v ->]. exists v. split; [reflexivity|]. intros Hi'. exfalso.
              pose proof (x_bounds f (i + 1) y Hf ltac:(lia) Hy) as (XB2 & _ & [XR2|XR2]); rewrite EX in Ln; [rewrite (OC XR2) in HL; lia|].
              destruct (Z.odd cr); lia. }
        cbn [bind]. eexists. split; [reflexivity|]. cbn [fst snd].
        split; [|rewrite Z.add_assoc, <- EN; exact R'].
        intros Hi'. rewrite (Ev Hi'). unfold nx, x. destruct (Z.odd y); ring.
      * unfold for_range in E. rewrite E. cbn [bind]. cbn [snd] in Q2.
        assert (0 <= pitch * 2 < 2 ^ 32) as PB by lia. rewrite ua_ok by lia. cbn [bind].
        rewrite ua_ok by lia. cbn [bind]. eexists. split; [reflexivity|]. cbn [fst snd]. split.
        -- unfold row_dst. ring.
        -- replace ((f * cr + (y + 1)) * cc) with ((f * cr + y) * cc + cc) by ring. exact Q2.
    + rewrite E. eexists. split; [reflexivity|]. cbn [fst snd] in *. split.
      * rewrite Q1. unfold row_dst. rewrite <- face_rows by lia. ring.
      * replace ((f + 1) * cr * cc) with ((f * cr + cr) * cc) by ring. exact Q2.
  - rewrite E. cbn [bind]. eexists. split; [reflexivity|exact Q2].
Qed.

(** ** The loops over the blocks of a chunk *)
Hypothesis HB4 : bpb mod 4 = 0.
Hypothesis HFH : faces * (2 * chunk_rows H) * bpb < 2 ^ 28.

Lemma below_bounds f x y : 0 <= f < faces -> 0 <= x < cc -> 0 <= y < cr -> 2 * y + 1 < H ->
  row_dst f y + 2 * x * bpb + pitch <= last + (if Z.odd H then - pitch else pitch).
Proof.
  intros Hf Hx Hy Hb. pose proof (x_bounds f x y Hf Hx Hy) as (XB & _ & _).
  destruct (Z.odd H) eqn:O; [|lia]. pose proof cols_bounds as CB. pose proof rows_bounds as RB.
  assert (H mod 2 = 1) as O2 by (rewrite Zmod_odd, O; reflexivity).
  assert (faces = 1) as EF by (destruct HS; [auto|lia]).
  rewrite row_no by exact Hf. unfold last_chunk. rewrite EF. assert (f = 0) as -> by lia.
  assert (0 <= pitch) as PP by nia. assert (x * bpb <= (cc - 1) * bpb) by nia.
  assert (2 * cr = H + 1) as EC by (unfold chunk_rows in *; pose proof (Z.div_mod H 2 ltac:(lia)); pose proof (Z.div_mod (H + 1) 2 ltac:(lia)); pose proof (Z.mod_pos_bound (H + 1) 2 ltac:(lia)); lia).
  assert (y * pitch <= (cr - 2) * pitch) by (apply Z.mul_le_mono_nonneg_r; lia). lia.
Qed.
Lemma narrow_bounds f x y : 0 <= f < faces -> 0 <= x < cc -> 0 <= y < cr -> W = 1 ->
  row_dst f y + 2 * x * bpb + 4 * bpb < 2 ^ 31.
Proof.
  intros Hf Hx Hy E. pose proof (x_bounds f x y Hf Hx Hy) as (XB & _ & _). pose proof cols_bounds as CB.
  unfold last_chunk in XB. assert (cc = 1) as EC by (unfold chunk_cols; rewrite E; reflexivity). rewrite EC, E in XB.
  rewrite E in HP. lia.
Qed.

Lemma chunk_blocks_ok {S} m (Rel : Z -> S -> Prop) f x y (blk : bool -> Z -> Z -> S -> res S) st0 :
  last + block_reach m W H bpb < 2 ^ 31 ->
  0 <= f < faces -> 0 <= x < cc -> 0 <= y < cr -> Rel 0 st0 ->
  (forall k pd st, 0 <= k < 4 -> Rel k st ->
    (inside x y k = true -> pd = (row_dst f y + 2 * x * bpb + k / 2 * pitch + k mod 2 * bpb) / 4) ->
    exists st', blk (inside x y k) k pd st = Ok st' /\ Rel (k + 1) st') ->
  exists st', chunk_blocks m bpb pitch (row_dst f y + 2 * x * bpb) (negb (2 * x + 1 <? W)) (negb (2 * y + 1 <? H)) blk st0 = Ok st' /\ Rel 4 st'.
Proof.
  intros HL Hf Hx Hy R0 Step. pose proof (x_bounds f x y Hf Hx Hy) as (XB & _ & _). pose proof cols_bounds as CB. pose proof rows_bounds as RB.
  assert (row_dst f y + 2 * x * bpb = 4 * ((row_dst f y + 2 * x * bpb) / 4)) as D4.
  { apply Z.div_exact; [lia|]. unfold row_dst. rewrite Z.mul_assoc, <- Z.mul_add_distr_r, Zmult_mod, HB4, Z.mul_0_r. reflexivity. }
  pose proof (Z.div_exact bpb 4 ltac:(lia)) as [_ B4]. specialize (B4 HB4).
  set (bd := row_dst f y + 2 * x * bpb) in *. set (b := bd / 4) in *. set (w := bpb / 4) in *.
  unfold chunk_blocks.
  assert (forall by_ bx, 0 <= by_ < 2 -> 0 <= bx < 2 ->
    negb ((negb (bx =? 0) && negb (2 * x + 1 <? W)) || (negb (by_ =? 0) && negb (2 * y + 1 <? H))) = inside x y (bx + by_ * 2)) as V.
  { intros by_ bx H1 H2. unfold inside.
    replace (bx + by_ * 2) with (2 * by_ + bx) by ring. destruct (half_parts by_ bx H2) as [-> ->].
    destruct (Z.eqb_spec bx 0), (Z.eqb_spec by_ 0); cbn [negb andb orb]; subst; rewrite ?negb_involutive.
    - rewrite !Z.add_0_r. destruct (Z.ltb_spec (2 * x) W), (Z.ltb_spec (2 * y) H); try lia; reflexivity.
    - assert (by_ = 1) as -> by lia. rewrite ?Z.add_0_r. destruct (Z.ltb_spec (2 * x) W); [|lia]; destruct (2 * y + 1 <? H); reflexivity.
    - assert (bx = 1) as -> by lia. rewrite ?Z.add_0_r. destruct (Z.ltb_spec (2 * y) H); [|lia]; destruct (2 * x + 1 <? W); reflexivity.
    - assert (by_ = 1) as -> by lia. assert (bx = 1) as -> by lia. destruct (2 * x + 1 <? W), (2 * y + 1 <? H); reflexivity. }
  assert (pitch = 4 * (W * w)) as P4 by (rewrite B4 at 1; ring).
  set (known := fun by_ => m = Checked \/ by_ = 0 \/ (by_ = 1 /\ 2 * y + 1 < H)).
  match goal with |- exists s', bind (for_range 0 2 ?g ?s) _ = _ /\ _ =>
    destruct (for_range_inv (fun by_ (st : Z * S) => (known by_ -> fst st = b + by_ * (W * w)) /\ Rel (by_ * 2) (snd st)) 0 2 g s) as ([pd st'] & E & Q1 & Q2)
  end.
  - lia.
  - cbn [fst snd]. rewrite shr_div by lia. change (2 ^ 2) with 4. fold b. split; [intros _; ring|exact R0].
  - intros by_ [pd st] Hby [P1 P2]. cbn [fst snd] in P1, P2.
    match goal with |- exists s', bind (for_range 0 2 ?g ?s) _ = _ /\ _ =>
      destruct (for_range_inv (fun bx (st : Z * S) => fst st = pd + bx * w /\ Rel (by_ * 2 + bx) (snd st)) 0 2 g s) as ([pd' st'] & E & Q1 & Q2)
    end.
    + lia.
    + cbn [fst snd]. split; [ring|rewrite Z.add_0_r; exact P2].
    + clear st P2. intros bx [pd1 st] Hbx [P0 P2]. cbn [fst snd] in P0, P2. cbv zeta. rewrite V by lia.
      assert (0 <= bx + by_ * 2 < 4) as Hk by lia.
      rewrite Z.add_comm in P2. destruct (Step (bx + by_ * 2) pd1 st Hk P2) as (st' & E & R').
      { unfold inside. replace (bx + by_ * 2) with (2 * by_ + bx) by ring. destruct (half_parts by_ bx Hbx) as [-> ->]. intros I.
        apply andb_true_iff in I. destruct I as [_ I2]. apply Z.ltb_lt in I2.
        assert (known by_) as K. { right. destruct (Z.eq_dec by_ 0); [left; lia|right]. assert (by_ = 1) by lia. subst by_. split; [reflexivity|lia]. }
        rewrite P0, (P1 K), D4, P4, B4. apply Z.div_unique with 0; [lia|ring]. }
      rewrite E. cbn [bind]. eexists. split; [reflexivity|]. cbn [fst snd]. split.
      * rewrite P0. rewrite shr_div by lia. change (2 ^ 2) with 4. fold w. ring.
      * replace (by_ * 2 + (bx + 1)) with (bx + by_ * 2 + 1) by ring. exact R'.
    + rewrite E. cbn [bind fst snd] in *. subst pd'. cbv zeta. rewrite shl_mul by lia. change (2 ^ 2) with 4.
      assert (bpb <= pitch) as PP by nia.
      assert (by_ * pitch <= pitch /\ 0 <= by_ * pitch) as [BP1 BP2] by nia.
      replace ((by_ + 1) * 2) with (by_ * 2 + 2) by ring.
      rewrite (swrap_small pitch) by lia. rewrite ia_ok by lia. cbn [bind].
      assert (m = Checked \/ (by_ = 0 /\ 2 * y + 1 < H) -> pd = b + by_ * (W * w) /\
        bd + by_ * pitch + 2 * bpb < 2 ^ 31 /\ bd + by_ * pitch + pitch < 2 ^ 31) as X.
      { intros C. split; [apply P1; unfold known; destruct C as [C|[C _]]; auto|].
        assert (bd + by_ * pitch + pitch < 2 ^ 31) as X1.
        { destruct C as [->|[-> C]].
          - cbn [block_reach] in HL. lia.
          - pose proof (below_bounds f x y Hf Hx Hy C) as BB. fold bd in BB. unfold block_reach in HL.
            destruct m; [lia|]. unfold loop_reach in HL. destruct (Z.odd H), (Z.odd (chunk_rows H)); lia. }
        split; [|exact X1]. destruct (Z.eq_dec W 1) as [W1|W1].
        - pose proof (narrow_bounds f x y Hf Hx Hy W1) as NB. fold bd in NB. rewrite W1 in BP1 |- *. lia.
        - assert (2 * bpb <= pitch) by nia. lia. }
      assert (exists v, ia m 32 (swrap 32 (u64 ((pd + 2 * w) * 4)) + (- bpb * 2 + pitch)) = Ok v /\
        (known (by_ + 1) -> Z.shiftr (u64 v) 2 = b + (by_ + 1) * (W * w))) as (v & -> & Ev).
      { assert (m = Checked \/ (by_ = 0 /\ 2 * y + 1 < H) -> exists v, ia m 32 (swrap 32 (u64 ((pd + 2 * w) * 4)) + (- bpb * 2 + pitch)) = Ok v /\
          Z.shiftr (u64 v) 2 = b + (by_ + 1) * (W * w)) as Y.
        { intros C. destruct (X C) as (-> & X1 & X2).
          assert ((b + by_ * (W * w) + 2 * w) * 4 = bd + by_ * pitch + 2 * bpb) as EB by lia.
          rewrite EB. unfold u64 at 1. rewrite Z.mod_small by lia. rewrite swrap_small by lia.
          rewrite ia_ok by lia. eexists. split; [reflexivity|]. unfold u64. rewrite Z.mod_small by lia. rewrite shr_div by lia. change (2 ^ 2) with 4.
          symmetry. apply Z.div_unique with 0; lia. }
        destruct m eqn:Em; [destruct (Y ltac:(auto)) as (v & -> & Ev); exists v; auto|].
        destruct (Z.eq_dec by_ 0) as [B0|B0]; [destruct (Z.lt_ge_cases (2 * y + 1) H) as [C|C]|].
        - destruct (Y ltac:(auto)) as (v & -> & Ev). exists v. auto.
        - destruct (ia_total 32 (swrap 32 (u64 ((pd + 2 * w) * 4)) + (- bpb * 2 + pitch))) as [v ->]. exists v. split; [reflexivity|]. unfold known; intros [K|[K|[_ K]]]; try discriminate; lia.
        - destruct (ia_total 32 (swrap 32 (u64 ((pd + 2 * w) * 4)) + (- bpb * 2 + pitch))) as [v ->]. exists v. split; [reflexivity|]. unfold known; intros [K|[K|[K _]]]; try discriminate; lia. }
      cbn [bind]. eexists. split; [reflexivity|]. cbn [fst snd]. split; [exact Ev|exact Q2].
  - rewrite E. cbn [bind]. eexists. split; [reflexivity|exact Q2].
Qed.
End Grid.
