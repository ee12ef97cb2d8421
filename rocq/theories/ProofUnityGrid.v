(** * Proofs about the loops of the Unity unpackers. *)
From Verif Require Import Base BaseLemmas ModelCrn ModelCrunch ModelUnity SpecCrn SpecCrnLevel SpecUnity ProofCrnGrid.

(** ** Values by recursion *)
Lemma history_stable {A} (z : A) step : forall k n, n < Z.of_nat k -> history z step k n = value z step n.
Proof.
  induction k as [|k IH]; intros n Hn.
  - unfold value. replace (Z.to_nat (n + 1)) with O by lia. reflexivity.
  - cbn [history]. destruct (Z.eqb_spec n (Z.of_nat k)) as [->|N].
    + unfold value. replace (Z.to_nat (Z.of_nat k + 1)) with (S k) by lia. cbn [history]. rewrite Z.eqb_refl. reflexivity.
    + apply IH. lia.
Qed.
Lemma value_neg {A} (z : A) step n : n < 0 -> value z step n = z.
Proof. intros Hn. unfold value. replace (Z.to_nat (n + 1)) with O by lia. reflexivity. Qed.
Lemma value_eq {A} (z : A) step n : 0 <= n ->
  (forall h h', (forall i, i < n -> h i = h' i) -> step h n = step h' n) ->
  value z step n = step (value z step) n.
Proof.
  intros Hn Loc. unfold value at 1. replace (Z.to_nat (n + 1)) with (S (Z.to_nat n)) by lia. cbn [history].
  rewrite Z2Nat.id by lia. rewrite Z.eqb_refl. apply Loc. intros i Hi. apply history_stable. lia.
Qed.
Lemma value_inv {A} (P : A -> Prop) (z : A) step : P z -> (forall h n, (forall i, P (h i)) -> P (step h n)) -> forall n, P (value z step n).
Proof.
  intros Pz Ps n. unfold value. generalize (Z.to_nat (n + 1)). intros k. revert n. induction k as [|k IH]; intros n; cbn [history]; [exact Pz|].
  destruct (n =? Z.of_nat k); [apply Ps; exact IH|apply IH].
Qed.

Lemma even_up_bounds n : 1 <= n -> 2 <= even_up n /\ even_up n - 1 <= n <= even_up n.
Proof. intros Hn. unfold even_up. pose proof (Z.div_mod (n + 1) 2 ltac:(lia)). pose proof (Z.mod_pos_bound (n + 1) 2 ltac:(lia)). lia. Qed.
Lemma even_up_land n : 0 <= n -> Z.land (n + 1) (Z.lnot 1) = even_up n.
Proof.
  intros Hn. rewrite <- Z.ldiff_land. change 1 with (Z.ones 1). rewrite Z.ldiff_ones_r by lia. change (Z.ones 1) with 1.
  rewrite shl_mul, shr_div by lia. change (2 ^ 1) with 2. unfold even_up. lia.
Qed.
Lemma even_up_even n : n mod 2 = 0 -> even_up n = n.
Proof. intros E. unfold even_up. pose proof (Z.div_mod n 2 ltac:(lia)). assert ((n + 1) / 2 = n / 2) as -> by (symmetry; apply Z.div_unique with 1; lia). lia. Qed.
Lemma even_up_mod n : even_up n mod 2 = 0.
Proof. unfold even_up. rewrite Z.mul_comm. apply Z.mod_mul. lia. Qed.
Lemma even_up_odd n : n mod 2 <> 0 -> even_up n = n + 1.
Proof.
  intros E. unfold even_up. pose proof (Z.div_mod n 2 ltac:(lia)). pose proof (Z.mod_pos_bound n 2 ltac:(lia)).
  assert ((n + 1) / 2 = n / 2 + 1) as -> by (symmetry; apply Z.div_unique with 0; lia). lia.
Qed.

Lemma ua_wraps w x : x < 0 \/ 2 ^ w <= x -> ua Wrapping w x = Ok (x mod 2 ^ w).
Proof. intros Hx. unfold ua. destruct (Z.leb_spec 0 x), (Z.ltb_spec x (2 ^ w)); cbn [andb]; try lia; reflexivity. Qed.
Lemma ua_panics w x : x < 0 \/ 2 ^ w <= x -> ua Checked w x = Panic.
Proof. intros Hx. unfold ua. destruct (Z.leb_spec 0 x), (Z.ltb_spec x (2 ^ w)); cbn [andb]; try lia; reflexivity. Qed.

Section Grid.
Context (W H faces words : Z).
Hypothesis HW : 1 <= W.
Hypothesis HH : 1 <= H.
Hypothesis HF : 1 <= faces.
Hypothesis HB : 1 <= words.
Notation cols := (u_cols W).
Notation rows := (u_rows H).
Notation place := (u_place W H).
Notation bpb := (4 * words).

Lemma u_cols_bounds : 2 <= cols /\ cols - 1 <= W <= cols.
Proof. apply even_up_bounds, HW. Qed.
Lemma u_rows_bounds : 2 <= rows /\ rows - 1 <= H <= rows.
Proof. apply even_up_bounds, HH. Qed.

Definition u_number (q : Z) : Z := place (q / W / H) (q mod W) ((q / W) mod H).
Definition u_visible_no (f x y : Z) : Z := (f * H + y) * W + x.

Lemma u_visible_range f x y : 0 <= f < faces -> 0 <= x < W -> 0 <= y < H -> 0 <= u_visible_no f x y < faces * H * W.
Proof.
  intros Hf Hx Hy. unfold u_visible_no. assert (0 <= f * H) by nia. assert (f * H + y + 1 <= faces * H) by nia. nia.
Qed.
Lemma u_number_visible f x y : 0 <= f -> 0 <= x < W -> 0 <= y < H -> u_number (u_visible_no f x y) = place f x y.
Proof.
  intros Hf Hx Hy. unfold u_number, u_visible_no.
  assert (((f * H + y) * W + x) / W = f * H + y) as -> by (symmetry; apply Z.div_unique with x; lia).
  assert (((f * H + y) * W + x) mod W = x) as -> by (symmetry; apply Z.mod_unique with (f * H + y); lia).
  assert ((f * H + y) / H = f) as -> by (symmetry; apply Z.div_unique with y; lia).
  assert ((f * H + y) mod H = y) as -> by (symmetry; apply Z.mod_unique with f; lia). reflexivity.
Qed.
Lemma u_number_inj q f x y : 0 <= q < faces * H * W -> 0 <= f -> 0 <= x < cols -> 0 <= y < rows ->
  u_number q = place f x y -> x < W /\ y < H /\ q = u_visible_no f x y.
Proof.
  intros Hq Hf Hx Hy E. unfold u_number, u_place in E. pose proof u_cols_bounds as CB. pose proof u_rows_bounds as RB.
  pose proof (Z.div_mod q W ltac:(lia)) as Q1. pose proof (Z.mod_pos_bound q W ltac:(lia)) as Q2.
  pose proof (Z.div_mod (q / W) H ltac:(lia)) as R1. pose proof (Z.mod_pos_bound (q / W) H ltac:(lia)) as R2.
  destruct (radix (q / W / H * rows + (q / W) mod H) (q mod W) (f * rows + y) x cols ltac:(lia) ltac:(lia) E) as [E1 E2].
  destruct (radix (q / W / H) ((q / W) mod H) f y rows ltac:(lia) ltac:(lia) E1) as [E3 E4].
  split; [lia|]. split; [lia|]. unfold u_visible_no. rewrite <- E2, <- E3, <- E4. rewrite Q1 at 1. rewrite R1 at 1. ring.
Qed.

Definition u_filled (expected : Z -> list Z) (n : Z) (dst : list Z) : Prop :=
  zlen dst = faces * H * W * bpb /\
  forall i, 0 <= i < faces * H * W * bpb -> u_number (i / bpb) < n -> znth dst i = znth (expected (u_number (i / bpb))) (i mod bpb).

Section Fill.
Context (expected : Z -> list Z).
Hypothesis HE : forall n, zlen (expected n) = bpb.

Lemma u_byte_block i : 0 <= i < faces * H * W * bpb -> 0 <= i / bpb < faces * H * W.
Proof. intros Hi. split; [apply Z.div_pos; lia|apply Z.div_lt_upper_bound; lia]. Qed.
Lemma u_number_range q : 0 <= q < faces * H * W -> 0 <= u_number q < u_blocks W H faces.
Proof.
  intros Hq. unfold u_number, u_place, u_blocks. pose proof u_cols_bounds as CB. pose proof u_rows_bounds as RB.
  pose proof (Z.mod_pos_bound q W ltac:(lia)) as Q2. pose proof (Z.mod_pos_bound (q / W) H ltac:(lia)) as R2.
  assert (0 <= q / W < faces * H) as Q3 by (split; [apply Z.div_pos; lia|apply Z.div_lt_upper_bound; lia]).
  assert (0 <= q / W / H < faces) as Q4 by (split; [apply Z.div_pos; lia|apply Z.div_lt_upper_bound; lia]).
  assert (0 <= q / W / H * rows) by nia. assert (q / W / H * rows + (q / W) mod H + 1 <= faces * rows) by nia. nia.
Qed.

Lemma u_fill_visible f x y dst : 0 <= f < faces -> 0 <= x < W -> 0 <= y < H ->
  u_filled expected (place f x y) dst ->
  u_filled expected (place f x y + 1) (put dst (u_visible_no f x y * bpb) (expected (place f x y))).
Proof.
  intros Hf Hx Hy [L F]. pose proof u_cols_bounds as CB. pose proof u_rows_bounds as RB.
  pose proof (u_visible_range f x y Hf Hx Hy) as R. pose proof (u_number_visible f x y ltac:(lia) Hx Hy) as EN.
  set (q := u_visible_no f x y) in *. pose proof (HE (place f x y)) as LE.
  assert (q * bpb + bpb <= faces * H * W * bpb) as Fit by nia. assert (0 <= q * bpb) as P0 by nia.
  split; [rewrite zlen_put by lia; exact L|].
  intros i Hi P. rewrite znth_put by lia. rewrite LE. pose proof (u_byte_block i Hi) as Rq.
  pose proof (Z.div_mod i bpb ltac:(lia)) as DM. pose proof (Z.mod_pos_bound i bpb ltac:(lia)) as MB.
  destruct (Z.eq_dec (i / bpb) q) as [E|E].
  - rewrite E in *. destruct (Z.leb_spec (q * bpb) i); [|lia]. destruct (Z.ltb_spec i (q * bpb + bpb)); [|lia]. cbn [andb].
    rewrite EN. f_equal. lia.
  - replace ((q * bpb <=? i) && (i <? q * bpb + bpb)) with false.
    2: { symmetry. apply andb_false_iff. destruct (Z.lt_trichotomy (i / bpb) q) as [T|[T|T]]; [left|contradiction|right].
         - apply Z.leb_gt. nia. - apply Z.ltb_ge. nia. }
    apply F; [exact Hi|]. destruct (Z.eq_dec (u_number (i / bpb)) (place f x y)) as [E2|]; [|lia].
    destruct (u_number_inj (i / bpb) f x y Rq ltac:(lia) ltac:(lia) ltac:(lia) E2) as (_ & _ & E3). contradiction.
Qed.
Lemma u_fill_hidden f x y dst : 0 <= f < faces -> 0 <= x < cols -> 0 <= y < rows -> (y <? H) && (x <? W) = false ->
  u_filled expected (place f x y) dst -> u_filled expected (place f x y + 1) dst.
Proof.
  intros Hf Hx Hy I [L F]. split; [exact L|]. intros i Hi P. apply F; [exact Hi|].
  pose proof (u_byte_block i Hi) as Rq.
  destruct (Z.eq_dec (u_number (i / bpb)) (place f x y)) as [E2|]; [|lia].
  destruct (u_number_inj (i / bpb) f x y Rq ltac:(lia) Hx Hy E2) as (E3 & E4 & _).
  apply andb_false_iff in I. destruct I as [I|I]; apply Z.ltb_ge in I; lia.
Qed.
Lemma u_fill_start dst : zlen dst = faces * H * W * bpb -> u_filled expected 0 dst.
Proof.
  intros L. split; [exact L|]. intros i Hi P. exfalso. pose proof (u_number_range _ (u_byte_block i Hi)). lia.
Qed.
Lemma u_fill_end dst : u_filled expected (u_blocks W H faces) dst -> dst = u_visible W H faces expected.
Proof.
  intros [L F]. assert (0 <= faces * H * W) as Hn by nia. unfold u_visible.
  pose proof (zlen_flat_map bpb (fun q => expected (u_number q)) (faces * H * W) Hn ltac:(intros; apply HE)) as LE.
  apply znth_ext; [unfold u_number in LE; congruence|]. intros i Hi. rewrite L in Hi.
  rewrite (znth_flat_map bpb (fun q => expected (u_number q))) by (auto; lia). apply F; [exact Hi|].
  apply u_number_range, u_byte_block, Hi.
Qed.
End Fill.

(** ** The loops over faces, rows and blocks *)
Hypothesis HS : faces = 1 \/ H mod 2 = 0.
Hypothesis HZ : (faces * H + 2) * (W + 2) * bpb <= 2 ^ 48.
Hypothesis HB4 : words <= 4.

Lemma u_face_rows f : 0 <= f < faces -> f * rows = f * H.
Proof.
  intros Hf. destruct HS as [E|E]; [assert (f = 0) as -> by lia; reflexivity|].
  unfold u_rows. rewrite even_up_even by exact E. reflexivity.
Qed.
Lemma u_visible_pos f y x : 0 <= f < faces -> 0 <= y < rows -> 0 <= x <= cols ->
  0 <= u_visible_no f x y * words /\ u_visible_no f x y * words + 4 * words < 2 ^ 48.
Proof.
  intros Hf Hy Hx. pose proof u_cols_bounds as CB. pose proof u_rows_bounds as RB. unfold u_visible_no.
  assert (0 <= f * H /\ f * H + y <= faces * H) as [B1 B2] by nia.
  set (r := f * H + y) in *. assert (0 <= r * W /\ r * W <= faces * H * W) as [B3 B4] by nia.
  assert (r * W + x <= faces * H * W + W + 1) as B5 by lia. split; [nia|].
  assert ((r * W + x) * words <= (faces * H * W + W + 1) * words) as B6 by (apply Z.mul_le_mono_nonneg_r; lia).
  assert ((faces * H + 2) * (W + 2) * bpb = 4 * ((faces * H * W + W + 1) * words) + 4 * ((W + 2 * (faces * H) + 3) * words)) as E by ring.
  rewrite E in HZ. assert (4 * ((1 + 2 * 1 + 3) * words) <= 4 * ((W + 2 * (faces * H) + 3) * words)) as B7 by nia. lia.
Qed.

Lemma unity_loops_ok {S} m (Rel : Z -> S -> Prop) (body : Z -> Z -> bool -> Z -> S -> res S) st0 :
  m = Wrapping \/ W mod 2 = 0 -> Rel 0 st0 ->
  (forall f x y st, 0 <= f < faces -> 0 <= x < cols -> 0 <= y < rows -> Rel (place f x y) st ->
    exists st', body y x ((y <? H) && (x <? W)) (u_visible_no f x y * words) st = Ok st' /\ Rel (place f x y + 1) st') ->
  exists st', unity_loops m words (W * bpb) W H faces body st0 = Ok st' /\ Rel (u_blocks W H faces) st'.
Proof.
  intros HM R0 Step. pose proof u_cols_bounds as CB. pose proof u_rows_bounds as RB. unfold unity_loops.
  rewrite !even_up_land by lia. fold (u_cols W) (u_rows H).
  assert (Z.shiftr (W * bpb) 2 = W * words) as ->.
  { rewrite shr_div by lia. change (2 ^ 2) with 4. symmetry. apply Z.div_unique with 0; lia. }
  pose proof (u_visible_pos 0 0 W ltac:(lia) ltac:(lia) ltac:(lia)) as VP0. unfold u_visible_no in VP0.
  replace ((0 * H + 0) * W + W) with W in VP0 by ring.
  assert (exists diff, ua m 32 (W * words - cols * words) = Ok diff /\ forall a, words <= a < 2 ^ 48 ->
    ua m 64 (a + u64 (swrap 32 diff)) = Ok (a + W * words - cols * words)) as (diff & -> & Hd).
  { destruct (Z.eq_dec (W mod 2) 0) as [E|E].
    - unfold u_cols. rewrite even_up_even by exact E. exists 0. rewrite Z.sub_diag. rewrite ua_ok by lia. split; [reflexivity|].
      intros a Ha. change (u64 (swrap 32 0)) with 0. rewrite ua_ok by lia. f_equal. lia.
    - destruct HM as [->|]; [|contradiction]. unfold u_cols. rewrite even_up_odd by exact E.
      exists (2 ^ 32 - words). rewrite ua_wraps by nia.
      assert ((W * words - (W + 1) * words) mod 2 ^ 32 = 2 ^ 32 - words) as -> by (symmetry; apply Z.mod_unique with (-1); lia). split; [reflexivity|].
      intros a Ha. assert (swrap 32 (2 ^ 32 - words) = - words) as ->.
      { unfold swrap. rewrite Z.mod_small by lia. destruct (Z.ltb_spec (2 ^ 32 - words) (2 ^ (32 - 1))); lia. }
      assert (u64 (- words) = 2 ^ 64 - words) as -> by (unfold u64; symmetry; apply Z.mod_unique with (-1); lia).
      rewrite ua_wraps by lia. f_equal. symmetry. apply Z.mod_unique with 1; [|lia]. lia. }
  cbn [bind].
  match goal with |- exists s', bind (for_range 0 faces ?g ?s) _ = _ /\ _ =>
    destruct (for_range_inv (fun f (st : Z * S) => fst st = f * rows * W * words /\ Rel (f * rows * cols) (snd st)) 0 faces g s) as ([rd st'] & E & Q1 & Q2)
  end.
  - lia.
  - cbn [fst snd]. split; [ring|exact R0].
  - intros f [rd st] Hf [P1 P2]. cbn [fst snd] in P1, P2.
    match goal with |- exists s', for_range 0 rows ?g ?s = _ /\ _ =>
      destruct (for_range_inv (fun y (st : Z * S) => fst st = (f * rows + y) * W * words /\ Rel ((f * rows + y) * cols) (snd st)) 0 rows g s) as ([rd' st'] & E & Q1 & Q2)
    end.
    + lia.
    + cbn [fst snd]. rewrite Z.add_0_r. split; [exact P1|exact P2].
    + clear rd st P1 P2. intros y [rd st] Hy [P1 P2]. cbn [fst snd] in P1, P2. subst rd.
      match goal with |- exists s', bind (for_range 0 cols ?g ?s) _ = _ /\ _ =>
        destruct (for_range_inv (fun x (st : bool * Z * S) => fst (fst st) = (y <? H) && (x <? W + 1) /\ snd (fst st) = u_visible_no f x y * words /\
          Rel (place f x y) (snd st)) 0 cols g s) as ([[vis' dp'] st'] & E & Q1 & Q2 & Q3)
      end.
      * lia.
      * cbn [fst snd]. split; [destruct (Z.ltb_spec 0 (W + 1)); [rewrite andb_true_r; reflexivity|lia]|]. split.
        -- unfold u_visible_no. rewrite (u_face_rows f Hf). ring.
        -- unfold u_place. rewrite Z.add_0_r. exact P2.
      * clear st P2. intros x [[vis dp] st] Hx (P1 & P2 & P3). cbn [fst snd] in P1, P2, P3. subst vis dp.
        assert ((y <? H) && (x <? W + 1) && (x <? W) = (y <? H) && (x <? W)) as ->.
        { destruct (y <? H); cbn [andb]; [|reflexivity]. destruct (Z.ltb_spec x (W + 1)), (Z.ltb_spec x W); try reflexivity; lia. }
        destruct (Step f x y st Hf Hx Hy P3) as (st' & -> & R'). cbn [bind].
        pose proof (u_visible_pos f y x Hf Hy ltac:(lia)) as VP. rewrite ua_ok by lia. cbn [bind]. eexists. split; [reflexivity|]. cbn [fst snd].
        split; [|split].
        -- destruct (y <? H); cbn [andb]; [|reflexivity]. destruct (Z.ltb_spec x W), (Z.ltb_spec (x + 1) (W + 1)); try reflexivity; lia.
        -- unfold u_visible_no. ring.
        -- unfold u_place in *. rewrite Z.add_assoc. exact R'.
      * rewrite E. cbn [bind]. cbn [fst snd] in Q2, Q3. subst dp'.
        pose proof (u_visible_pos f y cols Hf Hy ltac:(lia)) as VP.
        assert (words <= u_visible_no f cols y * words).
        { unfold u_visible_no. assert (0 <= f * H + y) by nia. assert (1 <= (f * H + y) * W + cols) by nia. nia. }
        rewrite Hd by lia. cbn [bind]. eexists. split; [reflexivity|]. cbn [fst snd]. split.
        -- unfold u_visible_no. rewrite <- (u_face_rows f Hf). ring.
        -- unfold u_place in Q3. replace ((f * rows + (y + 1)) * cols) with ((f * rows + y) * cols + cols) by ring. exact Q3.
    + rewrite E. eexists. split; [reflexivity|]. cbn [fst snd] in *. split.
      * rewrite Q1. ring.
      * replace ((f + 1) * rows * cols) with ((f * rows + rows) * cols) by ring. exact Q2.
  - rewrite E. cbn [bind]. eexists. split; [reflexivity|exact Q2].
Qed.

End Grid.

(** With an odd number of columns the subtraction underflows. *)
Lemma unity_loops_odd {S} W H faces words (body : Z -> Z -> bool -> Z -> S -> res S) st :
  1 <= W -> 1 <= words -> W mod 2 = 1 -> unity_loops Checked words (W * (4 * words)) W H faces body st = Panic.
Proof.
  intros HW Hw O. unfold unity_loops. rewrite even_up_land by lia. rewrite even_up_odd by lia.
  assert (Z.shiftr (W * (4 * words)) 2 = W * words) as ->.
  { rewrite shr_div by lia. change (2 ^ 2) with 4. symmetry. apply Z.div_unique with 0; lia. }
  rewrite ua_panics by nia. reflexivity.
Qed.
