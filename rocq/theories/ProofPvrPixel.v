(** * PVRTC: interpolation of colours, modulation, pixels of one block *)
From Verif Require Import Base BaseLemmas BitLemmas ModelColor ModelPvrtc SpecImage SpecBc SpecPvrtc ProofBc ProofPvrInfo.

(** Two nested loops storing consecutive entries. *)
Lemma fill2 {A} (d : A) nx ny (body : Z -> Z -> list A * Z -> res (list A * Z)) (F : Z -> A) l0 :
  0 <= nx -> 0 <= ny -> nx * ny <= zlen l0 ->
  (forall y x l, 0 <= y < ny -> 0 <= x < nx -> zlen l = zlen l0 -> 0 <= nx * y + x < zlen l0 ->
     body y x (l, nx * y + x) = Ok (replace_nth (Z.to_nat (nx * y + x)) (F (nx * y + x)) l, nx * y + x + 1)) ->
  exists l, for_range 0 ny (fun y st => for_range 0 nx (body y) st) (l0, 0) = Ok (l, nx * ny) /\
    zlen l = zlen l0 /\ forall j, 0 <= j < nx * ny -> nth (Z.to_nat j) l d = F j.
Proof.
  intros Hx Hy Hlen Hb.
  set (I := fun k (st : list A * Z) => snd st = k /\ zlen (fst st) = zlen l0 /\
              forall j, 0 <= j < k -> nth (Z.to_nat j) (fst st) d = F j).
  destruct (for_range_inv (fun y => I (nx * y)) 0 ny (fun y st => for_range 0 nx (body y) st) (l0, 0)) as ([l i] & E & E1 & E2 & E3).
  - lia.
  - unfold I. cbn [fst snd]. split; [lia|]. split; [auto|]. intros; lia.
  - intros y st Hyy HI.
    destruct (for_range_inv (fun x => I (nx * y + x)) 0 nx (body y) st) as (st' & E & HI').
    + lia.
    + rewrite Z.add_0_r. auto.
    + intros x [l i] Hxx (E1 & E2 & E3). cbn [fst snd] in *. subst i.
      assert (0 <= nx * y) by (apply Z.mul_nonneg_nonneg; lia).
      assert (nx * (y + 1) <= nx * ny) by (apply Z.mul_le_mono_nonneg_l; lia).
      rewrite Hb by lia. eexists; split; [reflexivity|]. unfold I. cbn [fst snd].
      split; [lia|]. split; [rewrite zlen_replace_nth; auto|]. intros j Hj.
      destruct (Z.eq_dec j (nx * y + x)) as [->|N].
      * rewrite nth_replace_nth by (unfold zlen in *; lia). rewrite Nat.eqb_refl. reflexivity.
      * rewrite nth_replace_nth by (unfold zlen in *; lia). rewrite (proj2 (Nat.eqb_neq _ _)) by lia. apply E3. lia.
    + exists st'. split; [auto|]. replace (nx * (y + 1)) with (nx * y + nx) by ring. auto.
  - cbn [fst snd] in *. subst i. exists l. auto.
Qed.

(** The weights of the three blocks met in one direction. *)
Definition row (bw x : Z) : list Z :=
  [Z.max 0 (bw / 2 - x); if x <? bw / 2 then bw / 2 + x else bw + bw / 2 - x; Z.max 0 (x - bw / 2)].

Lemma idx_row4 x : 0 <= x < 4 -> idx INTERP_WEIGHT x = Ok (row 4 x) /\ idx INTERP_WEIGHT_Y x = Ok (row 4 x).
Proof. intros H. enum x H; split; reflexivity. Qed.
Lemma idx_row8 x : 0 <= x < 8 -> idx INTERP_WEIGHT_X x = Ok (row 8 x).
Proof. intros H. enum x H; reflexivity. Qed.

Lemma row_range bw x c : bw = 4 \/ bw = 8 -> 0 <= x < bw -> 0 <= c < 3 -> 0 <= znth (row bw x) c <= 8.
Proof.
  intros Hb Hx Hc. assert (0 <= bw / 2 <= 4 /\ bw <= 8 /\ 2 * (bw / 2) = bw) by (destruct Hb as [-> | ->]; vm_compute; intuition discriminate).
  unfold row. generalize dependent (bw / 2). intros h Hh.
  assert (c = 0 \/ c = 1 \/ c = 2) as [-> |[-> | ->]] by lia; unfold znth; change (Z.to_nat 0) with 0%nat; change (Z.to_nat 1) with 1%nat; change (Z.to_nat 2) with 2%nat; cbn [nth]; destruct (Z.ltb_spec x h); lia.
Qed.

(** One-dimensional interpolation. *)
Lemma interp1 bw n i x (g : Z -> Z) : bw = 4 \/ bw = 8 -> 0 <= i < n -> 0 <= x < bw ->
  let p := i * bw + x - bw / 2 in
  (bw - p mod bw) * g ((p / bw) mod n) + p mod bw * g ((p / bw + 1) mod n) =
  znth (row bw x) 0 * g ((i - 1) mod n) + znth (row bw x) 1 * g (i mod n) + znth (row bw x) 2 * g ((i + 1) mod n).
Proof.
  intros Hb Hi Hx p. assert (0 <= bw / 2 /\ 2 * (bw / 2) = bw) by (destruct Hb as [-> | ->]; vm_compute; intuition discriminate).
  unfold row. revert p. generalize dependent (bw / 2). intros h Hh p.
  unfold znth; change (Z.to_nat 0) with 0%nat; change (Z.to_nat 1) with 1%nat; change (Z.to_nat 2) with 2%nat; cbn [nth].
  destruct (Z.ltb_spec x h).
  - assert (p / bw = i - 1) as -> by (symmetry; apply Z.div_unique with (x + h); unfold p; lia).
    assert (p mod bw = x + h) as -> by (symmetry; apply Z.mod_unique with (i - 1); unfold p; lia).
    replace (i - 1 + 1) with i by lia. rewrite Z.max_r, Z.max_l by lia. nia.
  - assert (p / bw = i) as -> by (symmetry; apply Z.div_unique with (x - h); unfold p; lia).
    assert (p mod bw = x - h) as -> by (symmetry; apply Z.mod_unique with i; unfold p; lia).
    rewrite Z.max_l, Z.max_r by lia. nia.
Qed.

Lemma swrap8_id x : 0 <= x < 128 -> swrap 8 x = x.
Proof.
  intros. unfold swrap. cbv zeta. rewrite Z.mod_small by lia. change (2 ^ (8 - 1)) with 128. destruct (Z.ltb_spec x 128); lia.
Qed.

Section Block.
Context (m : build) (blk : Z -> Z -> list Z) (nbx nby bx by_ : Z).
Context (Hbx : 0 <= bx < nbx) (Hby : 0 <= by_ < nby) (Hblk : forall i j, bytes (blk i j)).
(** The neighbour number [c] (row by row, 4 is the block itself). *)
Definition near (c : Z) : list Z := blk ((bx + c mod 3 - 1) mod nbx) ((by_ + c / 3 - 1) mod nby).

Context (info : list tinfo) (Hlen : zlen info = 9).
Let T (c : Z) : tinfo := nth (Z.to_nat c) info tdefault.
Context (Ha : forall c, 0 <= c < 9 -> ta (T c) = color_a (near c)).
Context (Hb : forall c, 0 <= c < 9 -> tb (T c) = color_b (near c)).

Lemma idx_T c : 0 <= c < 9 -> idx info c = Ok (T c).
Proof. intros. apply idx_ok_d. lia. Qed.

Lemma accumulate_ok sel (V : Z -> Z) c wx wy : 0 <= c < 4 ->
  (forall k, 0 <= k < 9 -> zlen (sel (T k)) = 4 /\ znth (sel (T k)) c = V k /\ 0 <= V k <= 31) ->
  zlen wx = 3 -> zlen wy = 3 ->
  (forall k, 0 <= k < 3 -> 0 <= znth wx k <= 8) -> (forall k, 0 <= k < 3 -> 0 <= znth wy k <= 8) ->
  pvr_accumulate m info sel c wx wy = Ok (
    V 0 * (znth wx 0 * znth wy 0) + V 1 * (znth wx 1 * znth wy 0) + V 2 * (znth wx 2 * znth wy 0) +
    V 3 * (znth wx 0 * znth wy 1) + V 4 * (znth wx 1 * znth wy 1) + V 5 * (znth wx 2 * znth wy 1) +
    V 6 * (znth wx 0 * znth wy 2) + V 7 * (znth wx 1 * znth wy 2) + V 8 * (znth wx 2 * znth wy 2)).
Proof.
  intros Hc HV Lx Ly Wx Wy. unfold pvr_accumulate.
  set (P := fun k => V k * (znth wx (k mod 3) * znth wy (k / 3))).
  assert (HP : forall k, 0 <= k < 9 -> 0 <= P k <= 1984).
  { intros k Hk. unfold P. destruct (HV k Hk) as (_ & _ & R).
    pose proof (Wx (k mod 3) (Z.mod_pos_bound k 3 ltac:(lia))) as A.
    assert (0 <= k / 3 < 3) as B' by (clear -Hk; dlia). pose proof (Wy _ B') as B.
    clear -R A B. revert R A B. generalize (znth wx (k mod 3)) (znth wy (k / 3)) (V k).
    intros p q v R A B. assert (0 <= p * q <= 64) by nia. nia. }
  match goal with |- context [for_range 0 3 (fun acy st => for_range 0 3 (@?f acy) st) (0, 0)] =>
    set (body := f); match goal with |- _ = ?r =>
      change (bind (for_range 0 3 (fun acy st => for_range 0 3 (body acy) st) (0, 0)) (fun '(acc, _) => Ok acc) = r) end end.
  assert (step : forall y x acc, 0 <= y < 3 -> 0 <= x < 3 -> 0 <= acc < 1000000 ->
            body y x (acc, 3 * y + x) = Ok (acc + P (3 * y + x), 3 * y + x + 1)).
  { intros y x acc Hy Hx Hacc. unfold body. cbv beta iota. rewrite !idx_ok by lia. cbn [bind].
    pose proof (Wx x Hx). pose proof (Wy y Hy).
    assert (0 <= znth wx x * znth wy y <= 64) as Q.
    { clear -H H0. nia. }
    rewrite ia_ok by lia. cbn [bind]. rewrite idx_T by lia. cbn [bind].
    destruct (HV (3 * y + x) ltac:(lia)) as (L & E & R).
    rewrite idx_ok by lia. cbn [bind]. rewrite E.
    assert (V (3 * y + x) * (znth wx x * znth wy y) = P (3 * y + x)) as ->.
    { unfold P. do 3 f_equal. - apply Z.mod_unique with y; lia. - apply Z.div_unique with x; lia. }
    pose proof (HP (3 * y + x) ltac:(lia)).
    rewrite ia_ok by lia. cbn [bind]. rewrite ia_ok by lia. cbn [bind]. rewrite ua_ok by lia. reflexivity. }
  assert (step' : forall k k' y x acc, k = 3 * y + x -> k' = k + 1 -> 0 <= y < 3 -> 0 <= x < 3 -> 0 <= acc < 1000000 ->
            body y x (acc, k) = Ok (acc + P k, k')) by (intros; subst; apply step; lia).
  pose proof (HP 0 ltac:(lia)). pose proof (HP 1 ltac:(lia)). pose proof (HP 2 ltac:(lia)). pose proof (HP 3 ltac:(lia)).
  pose proof (HP 4 ltac:(lia)). pose proof (HP 5 ltac:(lia)). pose proof (HP 6 ltac:(lia)). pose proof (HP 7 ltac:(lia)).
  unfold for_range. change (zrange 0 3) with [0; 1; 2]. cbn [for_list bind].
  rewrite (step' 0 1 0 0) by lia. cbn [bind].
  rewrite (step' 1 2 0 1) by lia. cbn [bind].
  rewrite (step' 2 3 0 2) by lia. cbn [bind].
  rewrite (step' 3 4 1 0) by lia. cbn [bind].
  rewrite (step' 4 5 1 1) by lia. cbn [bind].
  rewrite (step' 5 6 1 2) by lia. cbn [bind].
  rewrite (step' 6 7 2 0) by lia. cbn [bind].
  rewrite (step' 7 8 2 1) by lia. cbn [bind].
  rewrite (step' 8 9 2 2) by lia. cbn [bind].
  reflexivity.
Qed.

Lemma bilinear_sum bw col x y : bw = 4 \/ bw = 8 -> 0 <= x < bw -> 0 <= y < 4 ->
  let V k := col ((bx + k mod 3 - 1) mod nbx) ((by_ + k / 3 - 1) mod nby) in
  let wx := row bw x in let wy := row 4 y in
  bilinear bw nbx nby col (bx * bw + x) (by_ * 4 + y) =
    V 0 * (znth wx 0 * znth wy 0) + V 1 * (znth wx 1 * znth wy 0) + V 2 * (znth wx 2 * znth wy 0) +
    V 3 * (znth wx 0 * znth wy 1) + V 4 * (znth wx 1 * znth wy 1) + V 5 * (znth wx 2 * znth wy 1) +
    V 6 * (znth wx 0 * znth wy 2) + V 7 * (znth wx 1 * znth wy 2) + V 8 * (znth wx 2 * znth wy 2).
Proof.
  intros Hw Hx Hy. cbv zeta beta.
  change (0 mod 3) with 0. change (1 mod 3) with 1. change (2 mod 3) with 2. change (3 mod 3) with 0. change (4 mod 3) with 1.
  change (5 mod 3) with 2. change (6 mod 3) with 0. change (7 mod 3) with 1. change (8 mod 3) with 2.
  change (0 / 3) with 0. change (1 / 3) with 0. change (2 / 3) with 0. change (3 / 3) with 1. change (4 / 3) with 1.
  change (5 / 3) with 1. change (6 / 3) with 2. change (7 / 3) with 2. change (8 / 3) with 2.
  replace (bx + 0 - 1) with (bx - 1) by lia. replace (bx + 1 - 1) with bx by lia. replace (bx + 2 - 1) with (bx + 1) by lia.
  replace (by_ + 0 - 1) with (by_ - 1) by lia. replace (by_ + 1 - 1) with by_ by lia. replace (by_ + 2 - 1) with (by_ + 1) by lia.
  unfold bilinear.
  set (p := bx * bw + x - bw / 2). set (q := by_ * 4 + y - 2).
  pose proof (fun g => interp1 bw nbx bx x g Hw Hbx Hx) as X. fold p in X. cbv zeta in X.
  pose proof (fun g => interp1 4 nby by_ y g (or_introl eq_refl) Hby Hy) as Y. cbv zeta in Y. change (4 / 2) with 2 in Y. fold q in Y.
  pose proof (X (fun i => (4 - q mod 4) * col i ((q / 4) mod nby) + q mod 4 * col i ((q / 4 + 1) mod nby))) as X'. cbv beta in X'.
  rewrite (Y (col ((bx - 1) mod nbx))), (Y (col (bx mod nbx))), (Y (col ((bx + 1) mod nbx))) in X'.
  match type of X' with ?l = ?r => transitivity l; [|rewrite X'] end; ring.
Qed.

Lemma bilinear_range bw col M x y : 0 < bw -> (forall i j, 0 <= col i j <= M) -> 0 <= bilinear bw nbx nby col x y <= M * (4 * bw).
Proof.
  intros Hw HM. unfold bilinear.
  pose proof (Z.mod_pos_bound (x - bw / 2) bw Hw) as Fx. pose proof (Z.mod_pos_bound (y - 2) 4 ltac:(lia)) as Fy.
  generalize dependent ((x - bw / 2) mod bw). generalize dependent ((y - 2) mod 4). intros fy Fy fx Fx.
  pose proof (HM (((x - bw / 2) / bw) mod nbx) (((y - 2) / 4) mod nby)) as A1.
  pose proof (HM (((x - bw / 2) / bw + 1) mod nbx) (((y - 2) / 4) mod nby)) as A2.
  pose proof (HM (((x - bw / 2) / bw) mod nbx) (((y - 2) / 4 + 1) mod nby)) as A3.
  pose proof (HM (((x - bw / 2) / bw + 1) mod nbx) (((y - 2) / 4 + 1) mod nby)) as A4.
  assert ((bw - fx) * (4 - fy) + fx * (4 - fy) + (bw - fx) * fy + fx * fy = 4 * bw) as S by ring.
  assert (0 <= (bw - fx) * (4 - fy)) as C1 by (apply Z.mul_nonneg_nonneg; lia).
  assert (0 <= fx * (4 - fy)) as C2 by (apply Z.mul_nonneg_nonneg; lia).
  assert (0 <= (bw - fx) * fy) as C3 by (apply Z.mul_nonneg_nonneg; lia).
  assert (0 <= fx * fy) as C4 by (apply Z.mul_nonneg_nonneg; lia).
  rewrite <- S. clear S Fx Fy HM. revert A1 A2 A3 A4 C1 C2 C3 C4.
  generalize ((bw - fx) * (4 - fy)) (fx * (4 - fy)) ((bw - fx) * fy) (fx * fy).
  generalize (col (((x - bw / 2) / bw) mod nbx) (((y - 2) / 4) mod nby)) (col (((x - bw / 2) / bw + 1) mod nbx) (((y - 2) / 4) mod nby))
    (col (((x - bw / 2) / bw) mod nbx) (((y - 2) / 4 + 1) mod nby)) (col (((x - bw / 2) / bw + 1) mod nbx) (((y - 2) / 4 + 1) mod nby)).
  clear. intros v1 v2 v3 v4 c1 c2 c3 c4 A1 A2 A3 A4 C1 C2 C3 C4.
  assert (K : forall c v, 0 <= c -> 0 <= v <= M -> 0 <= c * v <= c * M)
    by (intros; split; [apply Z.mul_nonneg_nonneg|apply Z.mul_le_mono_nonneg_l]; lia).
  pose proof (K c1 v1 C1 A1). pose proof (K c2 v2 C2 A2). pose proof (K c3 v3 C3 A3). pose proof (K c4 v4 C4 A4). lia.
Qed.

Definition up_a (bw c x y : Z) : Z := pvr_up bw nbx nby (fun i j => pvr_a (blk i j)) c x y.
Definition up_b (bw c x y : Z) : Z := pvr_up bw nbx nby (fun i j => pvr_b (blk i j)) c x y.

Lemma pvr_up_range bw (col : Z -> Z -> Z -> Z) c x y : bw = 4 \/ bw = 8 -> 0 <= c < 4 ->
  (forall i j, 0 <= col i j c <= if c =? 3 then 15 else 31) ->
  0 <= pvr_up bw nbx nby col c x y <= 255.
Proof.
  intros Hw Hc HM. unfold pvr_up. pose proof (bilinear_range bw (fun i j => col i j c) _ x y ltac:(lia) HM) as R.
  generalize dependent (bilinear bw nbx nby (fun i j => col i j c) x y). intros v R.
  destruct Hw as [-> | ->]; cbn [Z.eqb Pos.eqb]; destruct (c =? 3); clear -R; dlia.
Qed.
Lemma up_a_range bw c x y : bw = 4 \/ bw = 8 -> 0 <= c < 4 -> 0 <= up_a bw c x y <= 255.
Proof.
  intros. apply pvr_up_range; auto. intros i j. destruct (pvr_a_range (blk i j) c) as [R|[R|R]]; [exact R|lia|lia].
Qed.
Lemma up_b_range bw c x y : bw = 4 \/ bw = 8 -> 0 <= c < 4 -> 0 <= up_b bw c x y <= 255.
Proof.
  intros. apply pvr_up_range; auto. intros i j. destruct (pvr_b_range (blk i j) c) as [R|[R|R]]; [exact R|lia|lia].
Qed.

(** Shifts used for a block width. *)
Definition sh1 (bw : Z) : Z := if bw =? 4 then 1 else 2.
Definition sh2 (bw : Z) : Z := if bw =? 4 then 6 else 7.
Definition sh3 (bw : Z) : Z := if bw =? 4 then 0 else 1.
Definition sh4 (bw : Z) : Z := if bw =? 4 then 4 else 5.

Lemma clr_ok sel col bw x y : bw = 4 \/ bw = 8 -> 0 <= x < bw -> 0 <= y < 4 ->
  (forall k, 0 <= k < 9 -> zlen (sel (T k)) = 4 /\
     forall c, 0 <= c < 4 -> znth (sel (T k)) c = col (near k) c) ->
  (forall b c, 0 <= c < 4 -> 0 <= col b c <= if c =? 3 then 15 else 31) ->
  pvr_clr m info sel (row bw x) (row 4 y) (sh1 bw) (sh2 bw) (sh3 bw) (sh4 bw) =
    Ok (tab 4 (fun c => pvr_up bw nbx nby (fun i j => col (blk i j)) c (bx * bw + x) (by_ * 4 + y))).
Proof.
  intros Hw Hx Hy Hs Hr. unfold pvr_clr.
  assert (A : forall c, 0 <= c < 4 -> pvr_accumulate m info sel c (row bw x) (row 4 y) =
            Ok (bilinear bw nbx nby (fun i j => col (blk i j) c) (bx * bw + x) (by_ * 4 + y))).
  { intros c Hc. rewrite (accumulate_ok sel (fun k => col (near k) c) c).
    - rewrite (bilinear_sum bw (fun i j => col (blk i j) c)) by auto. reflexivity.
    - auto.
    - intros k Hk. destruct (Hs k Hk) as [L E]. split; [auto|]. split; [auto|].
      pose proof (Hr (near k) c Hc). destruct (c =? 3); lia.
    - reflexivity.
    - reflexivity.
    - intros; apply row_range; auto.
    - intros; apply row_range; auto. }
  rewrite !A by lia. cbn [bind].
  pose proof (fun c Hc => bilinear_range bw (fun i j => col (blk i j) c) _ (bx * bw + x) (by_ * 4 + y) ltac:(lia)
    (fun i j => Hr (blk i j) c Hc)) as R.
  pose proof (R 0 ltac:(lia)) as R0. pose proof (R 1 ltac:(lia)) as R1. pose proof (R 2 ltac:(lia)) as R2. pose proof (R 3 ltac:(lia)) as R3.
  cbn [Z.eqb Pos.eqb] in *. clear R A.
  unfold tab. change (zrange 0 4) with [0; 1; 2; 3]. cbn [map]. unfold pvr_up. cbn [Z.eqb Pos.eqb].
  set (v0 := bilinear bw nbx nby (fun i j => col (blk i j) 0) _ _) in *. set (v1 := bilinear bw nbx nby (fun i j => col (blk i j) 1) _ _) in *.
  set (v2 := bilinear bw nbx nby (fun i j => col (blk i j) 2) _ _) in *. set (v3 := bilinear bw nbx nby (fun i j => col (blk i j) 3) _ _) in *.
  clearbody v0 v1 v2 v3. unfold pvr_scale, sh1, sh2, sh3, sh4.
  destruct Hw as [-> | ->]; cbn [Z.eqb Pos.eqb]; rewrite !shr_div by lia;
    change (2 ^ 0) with 1; change (2 ^ 1) with 2; change (2 ^ 2) with 4; change (2 ^ 6) with 64;
    change (2 ^ 4) with 16; change (2 ^ 5) with 32; change (2 ^ 7) with 128; rewrite ?Z.div_1_r;
    (rewrite !ia_ok by (clear -R0 R1 R2 R3; change (2 ^ (32 - 1)) with 2147483648; dlia)); reflexivity.
Qed.

Lemma clr_a_ok bw x y : bw = 4 \/ bw = 8 -> 0 <= x < bw -> 0 <= y < 4 ->
  pvr_clr m info ta (row bw x) (row 4 y) (sh1 bw) (sh2 bw) (sh3 bw) (sh4 bw) =
    Ok (tab 4 (fun c => up_a bw c (bx * bw + x) (by_ * 4 + y))).
Proof.
  intros. apply clr_ok; auto.
  - intros k Hk. rewrite Ha by auto. split; [reflexivity|]. intros c Hc. enum c Hc; reflexivity.
  - intros b c Hc. destruct (pvr_a_range b c) as [R|[R|R]]; [exact R|lia|lia].
Qed.
Lemma clr_b_ok bw x y : bw = 4 \/ bw = 8 -> 0 <= x < bw -> 0 <= y < 4 ->
  pvr_clr m info tb (row bw x) (row 4 y) (sh1 bw) (sh2 bw) (sh3 bw) (sh4 bw) =
    Ok (tab 4 (fun c => up_b bw c (bx * bw + x) (by_ * 4 + y))).
Proof.
  intros. apply clr_ok; auto.
  - intros k Hk. rewrite Hb by auto. split; [reflexivity|]. intros c Hc. enum c Hc; reflexivity.
  - intros b c Hc. destruct (pvr_b_range b c) as [R|[R|R]]; [exact R|lia|lia].
Qed.

Lemma interpolate_ok a b w : 0 <= a <= 255 -> 0 <= b <= 255 -> 0 <= w <= 8 ->
  interpolate_color m a b w = Ok (pvr_blend a b w).
Proof.
  intros A B W. unfold interpolate_color. rewrite ia_ok by lia. cbn [bind].
  assert (0 <= a * (8 - w) <= 255 * (8 - w)) by (split; [apply Z.mul_nonneg_nonneg|apply Z.mul_le_mono_nonneg_r]; lia).
  assert (0 <= b * w <= 255 * w) by (split; [apply Z.mul_nonneg_nonneg|apply Z.mul_le_mono_nonneg_r]; lia).
  rewrite ia_ok by lia. cbn [bind]. rewrite ia_ok by lia. cbn [bind]. rewrite ia_ok by lia. cbn [bind].
  unfold pvr_blend. rewrite Z.quot_div_nonneg by lia. unfold u8. rewrite Z.mod_small; [reflexivity|].
  generalize dependent (a * (8 - w)). generalize dependent (b * w). clear -W. intros. dlia.
Qed.

(** The pixel, [W] being its modulation value. *)
Lemma pixel_ok bw x y W flag pu : bw = 4 \/ bw = 8 -> 0 <= W <= 8 -> flag mod 2 = (if pu : bool then 1 else 0) ->
  pvr_pixel m (tab 4 (fun c => up_a bw c x y)) (tab 4 (fun c => up_b bw c x y)) W flag =
  Ok (rgba (pvr_channel bw nbx nby blk W 0 x y) (pvr_channel bw nbx nby blk W 1 x y) (pvr_channel bw nbx nby blk W 2 x y)
       (if pu then 0 else pvr_channel bw nbx nby blk W 3 x y)).
Proof.
  intros Hw HW Hf. unfold pvr_pixel.
  pose proof (fun c Hc => up_a_range bw c x y Hw Hc) as RA. pose proof (fun c Hc => up_b_range bw c x y Hw Hc) as RB.
  rewrite !idx_ok by (rewrite zlen_tab; lia). cbn [bind]. rewrite !znth_tab by lia.
  rewrite !interpolate_ok by (auto; apply RA || apply RB; lia). cbn [bind].
  rewrite land_1, Hf. destruct pu; cbn [Z.eqb negb bind]; rewrite color_rgba; reflexivity.
Qed.

Lemma self_pos : (bx + 4 mod 3 - 1) mod nbx = bx /\ (by_ + 4 / 3 - 1) mod nby = by_.
Proof.
  change (4 mod 3) with 1. change (4 / 3) with 1. split; rewrite Z.mod_small; lia.
Qed.

(** The colours of all texels. *)
Definition pair_at (bw t : Z) : list Z * list Z :=
  (tab 4 (fun c => up_a bw c (bx * bw + t mod bw) (by_ * 4 + t / bw)),
   tab 4 (fun c => up_b bw c (bx * bw + t mod bw) (by_ * 4 + t / bw))).

Lemma apply4_ok buf : zlen buf = 32 -> info4 (blk bx by_) (T 4) ->
  exists buf', applicate_color_4bpp m info buf = Ok buf' /\ zlen buf' = 32 /\
    forall t, 0 <= t < 16 -> znth buf' t = pvr4_pixel blk nbx nby (bx * 4 + t mod 4) (by_ * 4 + t / 4).
Proof.
  intros Lb (_ & _ & Lw & Ww & Wp). unfold applicate_color_4bpp.
  match goal with |- context [for_range 0 4 (fun y st => for_range 0 4 (@?f y) st) ?s0] => set (body := f);
    destruct (fill2 ([0; 0; 0; 0], [0; 0; 0; 0]) 4 4 body (pair_at 4) (fst s0)) as (clr & E & Lc & Hc) end.
  - lia.
  - lia.
  - cbn [fst]. vm_compute. discriminate.
  - intros y x l Hy Hx Hl Hk. cbn [fst] in *. unfold body. cbv beta iota.
    rewrite (proj1 (idx_row4 x Hx)), (proj1 (idx_row4 y Hy)). cbn [bind].
    change 1 with (sh1 4) at 1. change 6 with (sh2 4) at 1.
    pose proof (clr_a_ok 4 x y (or_introl eq_refl) Hx Hy) as A. pose proof (clr_b_ok 4 x y (or_introl eq_refl) Hx Hy) as B.
    unfold sh1, sh2, sh3, sh4 in *. cbn [Z.eqb Pos.eqb] in *. rewrite A. cbn [bind]. rewrite B. cbn [bind].
    rewrite upd_ok by lia. cbn [bind]. rewrite ua_ok by (change (zlen (repeat ([0; 0; 0; 0], [0; 0; 0; 0]) 16)) with 16 in *; lia).
    cbn [bind]. unfold pair_at.
    replace ((4 * y + x) mod 4) with x by (apply Z.mod_unique with y; lia).
    replace ((4 * y + x) / 4) with y by (apply Z.div_unique with x; lia). reflexivity.
  - cbn [fst] in *. match goal with |- context [bind (for_range 0 4 ?f ?s) _] =>
      change (for_range 0 4 f s) with (for_range 0 4 (fun y st => for_range 0 4 (body y) st) (repeat ([0; 0; 0; 0], [0; 0; 0; 0]) 16, 0)) end.
    rewrite E. cbn [bind]. change (zlen (repeat ([0; 0; 0; 0], [0; 0; 0; 0]) 16)) with 16 in Lc. clear E body.
    rewrite idx_T by lia. cbn [bind].
    match goal with |- context [for_range 0 16 ?f ?s0] =>
      destruct (for_range_inv (fun i st => let '(b, flag) := st in zlen b = 32 /\ flag = tp (T 4) / 2 ^ i /\
        forall t, 0 <= t < i -> znth b t = pvr4_pixel blk nbx nby (bx * 4 + t mod 4) (by_ * 4 + t / 4)) 0 16 f s0)
        as ([b flag] & E & L & _ & H) end.
    + lia.
    + change (2 ^ 0) with 1. rewrite Z.div_1_r. split; [auto|]. split; [auto|]. intros; lia.
    + intros i [b flag] Hi (L & -> & H). cbv beta iota.
      rewrite (idx_ok_d ([0; 0; 0; 0], [0; 0; 0; 0])) by lia. cbn [bind]. rewrite Hc by lia.
      rewrite idx_ok by lia. cbn [bind]. rewrite Ww by lia.
      unfold pair_at. cbn [fst snd].
      rewrite (pixel_ok 4 _ _ _ _ (punch4 (blk bx by_) i)); [|auto|apply mod4_range; lia|apply Wp; lia].
      cbn [bind]. rewrite upd_ok by lia. cbn [bind]. rewrite ushr_ok by lia. cbn [bind].
      rewrite <- div_pow_split by lia.
      eexists; split; [reflexivity|]. split; [rewrite zlen_replace_nth; auto|]. split; [reflexivity|].
      intros t Ht. rewrite znth_replace by lia. destruct (Z.eqb_spec t i) as [->|N]; [|apply H; lia].
      unfold pvr4_pixel. cbv zeta.
      assert (0 <= i mod 4 < 4) by (apply Z.mod_pos_bound; lia). assert (0 <= i / 4 < 4) by (clear -Hi; dlia).
      replace ((bx * 4 + i mod 4) / 4) with bx by (apply Z.div_unique with (i mod 4); lia).
      replace ((by_ * 4 + i / 4) / 4) with by_ by (apply Z.div_unique with (i / 4); lia).
      replace ((bx * 4 + i mod 4) mod 4) with (i mod 4) by (apply Z.mod_unique with bx; lia).
      replace ((by_ * 4 + i / 4) mod 4) with (i / 4) by (apply Z.mod_unique with by_; lia).
      replace (i / 4 * 4 + i mod 4) with i by (clear; dlia). reflexivity.
    + rewrite E. cbn [bind]. exists b. auto.
Qed.

(** ** 2bpp *)
Context (H2 : forall c, 0 <= c < 9 -> info2 (near c) (T c)).

Lemma stored2_at_near u v : stored2_at blk nbx nby (bx * 8 + u) (by_ * 4 + v) =
  stored2 (blk ((bx + u / 8) mod nbx) ((by_ + v / 4) mod nby)) ((v mod 4) * 8 + u mod 8).
Proof.
  unfold stored2_at. cbv zeta.
  assert (K : forall b n i r, 0 < b -> 0 < n -> (i * b + r) mod (b * n) / b = (i + r / b) mod n /\ ((i * b + r) mod (b * n)) mod b = r mod b).
  { clear. intros b n i r Hb Hn. rewrite Z.rem_mul_r by lia.
    rewrite Z.div_add_l, (Z.add_comm (i * b)), Z.mod_add by lia.
    pose proof (Z.mod_pos_bound r b Hb). rewrite (Z.mul_comm b). split.
    - rewrite Z.div_add, Z.div_small by lia. reflexivity.
    - rewrite Z.mod_add by lia. apply Z.mod_small. lia. }
  destruct (K 8 nbx bx u ltac:(lia) ltac:(lia)) as [-> ->]. destruct (K 4 nby by_ v ltac:(lia) ltac:(lia)) as [-> ->]. reflexivity.
Qed.

Lemma near_read c j : 0 <= c < 9 -> 0 <= j < 32 -> even2 j = true -> idx (tw (T c)) j = Ok (stored2 (near c) j).
Proof.
  intros Hc Hj He. destruct (H2 c Hc) as (_ & _ & L & W & _). rewrite idx_ok by lia. rewrite W by lia.
  rewrite He. cbn [negb]. rewrite andb_false_r. reflexivity.
Qed.

Lemma even_parity x y : 0 <= x < 8 -> 0 <= y < 4 -> even2 (8 * y + x) = ((x + y) mod 2 =? 0).
Proof.
  intros. unfold even2. replace ((8 * y + x) / 8) with y by (apply Z.div_unique with x; lia).
  replace ((8 * y + x) mod 8) with x by (apply Z.mod_unique with y; lia). do 2 f_equal. lia.
Qed.

(** The texel reached by [c], [u], [v]. *)
Lemma near_stored c u v : 0 <= c < 9 -> u / 8 = c mod 3 - 1 -> v / 4 = c / 3 - 1 -> (u + v) mod 2 = 0 ->
  idx (tw (T c)) (8 * (v mod 4) + u mod 8) = Ok (stored2_at blk nbx nby (bx * 8 + u) (by_ * 4 + v)).
Proof.
  intros Hc Hu Hv He. rewrite near_read; [|auto|clear; dlia|].
  - rewrite stored2_at_near, Hu, Hv. unfold near.
    replace (bx + (c mod 3 - 1)) with (bx + c mod 3 - 1) by lia. replace (by_ + (c / 3 - 1)) with (by_ + c / 3 - 1) by lia.
    do 2 f_equal. lia.
  - rewrite even_parity by (apply Z.mod_pos_bound; lia). apply Z.eqb_eq. revert He. clear. dlia.
Qed.

Lemma neighbour_ok pos k i c d u v : 0 <= c < 9 -> idx pos k = Ok (c, d) -> i + d = 8 * (v mod 4) + u mod 8 ->
  u / 8 = c mod 3 - 1 -> v / 4 = c / 3 - 1 -> (u + v) mod 2 = 0 ->
  pvr_neighbour m info pos k i = Ok (stored2_at blk nbx nby (bx * 8 + u) (by_ * 4 + v)).
Proof.
  intros Hc Hp Hi Hu Hv He. unfold pvr_neighbour. rewrite Hp. cbn [bind fst snd]. rewrite idx_T by lia. cbn [bind].
  assert (0 <= i + d < 32) by (rewrite Hi; clear; dlia).
  rewrite ia_ok by lia. cbn [bind]. unfold u64. rewrite Z.mod_small by lia. rewrite Hi. apply near_stored; auto.
Qed.

Lemma four_neighbours x y : 0 <= x < 8 -> 0 <= y < 4 -> (x + y) mod 2 = 1 ->
  let s := stored2_at blk nbx nby in let X := bx * 8 + x in let Y := by_ * 4 + y in let i := 8 * y + x in
  pvr_neighbour m info POSYA y i = Ok (s X (Y - 1)) /\ pvr_neighbour m info POSYB y i = Ok (s X (Y + 1)) /\
  pvr_neighbour m info POSXL x i = Ok (s (X - 1) Y) /\ pvr_neighbour m info POSXR x i = Ok (s (X + 1) Y).
Proof.
  intros Hx Hy Hp. cbv zeta.
  assert (Ex : x / 8 = 0 /\ x mod 8 = x) by (split; [apply Z.div_small|apply Z.mod_small]; lia).
  assert (Ey : y / 4 = 0 /\ y mod 4 = y) by (split; [apply Z.div_small|apply Z.mod_small]; lia).
  destruct Ex as [Ex1 Ex2], Ey as [Ey1 Ey2].
  split; [|split; [|split]].
  - replace (by_ * 4 + y - 1) with (by_ * 4 + (y - 1)) by lia.
    assert (O : (x + (y - 1)) mod 2 = 0) by (revert Hp; clear; dlia).
    destruct (Z.eq_dec y 0) as [->|N].
    + apply (neighbour_ok _ _ _ 1 24); auto; try lia; try reflexivity. change ((0 - 1) mod 4) with 3. lia.
    + apply (neighbour_ok _ _ _ 4 (-8)); try lia; rewrite ?Ex1, ?Ex2; rewrite ?(Z.mod_small (y - 1)), ?(Z.div_small (y - 1)) by lia; try lia; try reflexivity.
      assert (y = 1 \/ y = 2 \/ y = 3) as [-> |[-> | ->]] by lia; reflexivity.
  - replace (by_ * 4 + y + 1) with (by_ * 4 + (y + 1)) by lia.
    assert (O : (x + (y + 1)) mod 2 = 0) by (revert Hp; clear; dlia).
    destruct (Z.eq_dec y 3) as [->|N].
    + apply (neighbour_ok _ _ _ 7 (-24)); auto; try lia; try reflexivity. change ((3 + 1) mod 4) with 0. lia.
    + apply (neighbour_ok _ _ _ 4 8); try lia; rewrite ?Ex1, ?Ex2; rewrite ?(Z.mod_small (y + 1)), ?(Z.div_small (y + 1)) by lia; try lia; try reflexivity.
      assert (y = 0 \/ y = 1 \/ y = 2) as [-> |[-> | ->]] by lia; reflexivity.
  - replace (bx * 8 + x - 1) with (bx * 8 + (x - 1)) by lia.
    assert (O : (x - 1 + y) mod 2 = 0) by (revert Hp; clear; dlia).
    destruct (Z.eq_dec x 0) as [->|N].
    + apply (neighbour_ok _ _ _ 3 7); auto; try lia; try reflexivity. change ((0 - 1) mod 8) with 7. lia.
    + apply (neighbour_ok _ _ _ 4 (-1)); try lia; rewrite ?Ey1, ?Ey2; rewrite ?(Z.mod_small (x - 1)), ?(Z.div_small (x - 1)) by lia; try lia; try reflexivity.
      clear -N Hx. enum x Hx; try reflexivity. lia.
  - replace (bx * 8 + x + 1) with (bx * 8 + (x + 1)) by lia.
    assert (O : (x + 1 + y) mod 2 = 0) by (revert Hp; clear; dlia).
    destruct (Z.eq_dec x 7) as [->|N].
    + apply (neighbour_ok _ _ _ 5 (-7)); auto; try lia; try reflexivity. change ((7 + 1) mod 8) with 0. lia.
    + apply (neighbour_ok _ _ _ 4 1); try lia; rewrite ?Ey1, ?Ey2; rewrite ?(Z.mod_small (x + 1)), ?(Z.div_small (x + 1)) by lia; try lia; try reflexivity.
      clear -N Hx. enum x Hx; try reflexivity. lia.
Qed.

Lemma stored2_at_range x y : 0 <= stored2_at blk nbx nby x y <= 8.
Proof.
  unfold stored2_at. cbv zeta. apply stored2_range.
  generalize (x mod (8 * nbx)) (y mod (4 * nby)). clear. intros. dlia.
Qed.

Lemma weight2_ok x y : 0 <= x < 8 -> 0 <= y < 4 ->
  let X := bx * 8 + x in let Y := by_ * 4 + y in let i := 8 * y + x in
  pvr_weight_2bpp m info x y i (znth (tw (T 4)) i) = Ok (mod2 blk nbx nby X Y) /\ 0 <= mod2 blk nbx nby X Y <= 8.
Proof.
  intros Hx Hy. cbv zeta. destruct (H2 4 ltac:(lia)) as (_ & _ & L & W & _). rewrite W by lia.
  unfold near. destruct self_pos as [-> ->]. rewrite even_parity by auto.
  unfold mod2. cbv zeta.
  replace ((bx * 8 + x) / 8) with bx by (apply Z.div_unique with x; lia).
  replace ((by_ * 4 + y) / 4) with by_ by (apply Z.div_unique with y; lia).
  replace ((bx * 8 + x + (by_ * 4 + y)) mod 2) with ((x + y) mod 2) by (clear; dlia).
  pose proof (fun x y => stored2_at_range x y) as R.
  assert (S : stored2 (blk bx by_) (8 * y + x) = stored2_at blk nbx nby (bx * 8 + x) (by_ * 4 + y)).
  { rewrite stored2_at_near, (Z.div_small x 8), (Z.div_small y 4), (Z.mod_small x 8), (Z.mod_small y 4) by lia.
    rewrite !Z.add_0_r, !Z.mod_small by lia. f_equal. lia. }
  pose proof (Z.mod_pos_bound (x + y) 2 ltac:(lia)).
  assert (P : negb ((x + y) mod 2 =? 0) = ((x + y) mod 2 =? 1)).
  { destruct (Z.eqb_spec ((x + y) mod 2) 0), (Z.eqb_spec ((x + y) mod 2) 1); auto; lia. }
  rewrite P. destruct (Z.eqb_spec (pvr_mode (blk bx by_)) 1) as [M|M]; cbn [andb].
  2:{ rewrite S. split; [|apply R]. unfold pvr_weight_2bpp. specialize (R (bx * 8 + x) (by_ * 4 + y)).
      destruct (Z.eqb_spec (stored2_at blk nbx nby (bx * 8 + x) (by_ * 4 + y)) (-1)); [lia|].
      destruct (Z.eqb_spec (stored2_at blk nbx nby (bx * 8 + x) (by_ * 4 + y)) (-2)); [lia|].
      destruct (Z.eqb_spec (stored2_at blk nbx nby (bx * 8 + x) (by_ * 4 + y)) (-3)); [lia|]. reflexivity. }
  destruct (Z.eqb_spec ((x + y) mod 2) 1) as [Q|Q].
  2:{ rewrite S. split; [|apply R]. unfold pvr_weight_2bpp. specialize (R (bx * 8 + x) (by_ * 4 + y)).
      destruct (Z.eqb_spec (stored2_at blk nbx nby (bx * 8 + x) (by_ * 4 + y)) (-1)); [lia|].
      destruct (Z.eqb_spec (stored2_at blk nbx nby (bx * 8 + x) (by_ * 4 + y)) (-2)); [lia|].
      destruct (Z.eqb_spec (stored2_at blk nbx nby (bx * 8 + x) (by_ * 4 + y)) (-3)); [lia|]. reflexivity. }
  destruct (four_neighbours x y Hx Hy Q) as (N1 & N2 & N3 & N4). cbv zeta in *.
  unfold fill_flag. pose proof (bits_range (pvr_mod (blk bx by_)) 0 1 ltac:(lia) ltac:(lia)) as B0. change (2 ^ 1) with 2 in B0.
  pose proof (R (bx * 8 + x) (by_ * 4 + y - 1)) as R1. pose proof (R (bx * 8 + x) (by_ * 4 + y + 1)) as R2.
  pose proof (R (bx * 8 + x - 1) (by_ * 4 + y)) as R3. pose proof (R (bx * 8 + x + 1) (by_ * 4 + y)) as R4. clear R.
  generalize dependent (stored2_at blk nbx nby (bx * 8 + x) (by_ * 4 + y - 1)). generalize dependent (stored2_at blk nbx nby (bx * 8 + x) (by_ * 4 + y + 1)).
  generalize dependent (stored2_at blk nbx nby (bx * 8 + x - 1) (by_ * 4 + y)). generalize dependent (stored2_at blk nbx nby (bx * 8 + x + 1) (by_ * 4 + y)).
  intros s4 N4 R4 s3 N3 R3 s2 N2 R2 s1 N1 R1.
  destruct (Z.eqb_spec (bits_at (pvr_mod (blk bx by_)) 0 1) 0), (Z.eqb_spec (bits_at (pvr_mod (blk bx by_)) 0 1) 1); try lia.
  - change (pvr_weight_2bpp m info x y (8 * y + x) (-3)) with
      (let* a := pvr_neighbour m info POSYA y (8 * y + x) in
       let* b := pvr_neighbour m info POSYB y (8 * y + x) in
       let* s := ia m 32 (a + b) in
       let* c := pvr_neighbour m info POSXL x (8 * y + x) in
       let* s := ia m 32 (s + c) in
       let* d := pvr_neighbour m info POSXR x (8 * y + x) in
       let* s := ia m 32 (s + d) in
       let* s := ia m 32 (s + 2) in
       Ok (swrap 8 (Z.quot s 4))).
    rewrite N1. cbn [bind]. rewrite N2. cbn [bind]. rewrite ia_ok by lia. cbn [bind]. rewrite N3. cbn [bind].
    rewrite ia_ok by lia. cbn [bind]. rewrite N4. cbn [bind]. rewrite ia_ok by lia. cbn [bind]. rewrite ia_ok by lia. cbn [bind].
    rewrite Z.quot_div_nonneg by lia.
    assert (0 <= (s1 + s2 + s3 + s4 + 2) / 4 <= 8) by (clear -R1 R2 R3 R4; dlia).
    rewrite swrap8_id by lia. auto.
  - destruct (Z.eqb_spec (bits_at (pvr_mod (blk bx by_)) 20 1) 1).
    + change (pvr_weight_2bpp m info x y (8 * y + x) (-1)) with
      (let* a := pvr_neighbour m info POSYA y (8 * y + x) in
       let* b := pvr_neighbour m info POSYB y (8 * y + x) in
       let* s := ia m 32 (a + b) in
       let* s := ia m 32 (s + 1) in
       Ok (swrap 8 (Z.quot s 2))).
      rewrite N1. cbn [bind]. rewrite N2. cbn [bind]. rewrite ia_ok by lia. cbn [bind].
      rewrite ia_ok by lia. cbn [bind]. rewrite Z.quot_div_nonneg by lia.
      assert (0 <= (s1 + s2 + 1) / 2 <= 8) by (clear -R1 R2 R3 R4; dlia).
      rewrite swrap8_id by lia. auto.
    + change (pvr_weight_2bpp m info x y (8 * y + x) (-2)) with
      (let* a := pvr_neighbour m info POSXL x (8 * y + x) in
       let* b := pvr_neighbour m info POSXR x (8 * y + x) in
       let* s := ia m 32 (a + b) in
       let* s := ia m 32 (s + 1) in
       Ok (swrap 8 (Z.quot s 2))).
      rewrite N3. cbn [bind]. rewrite N4. cbn [bind]. rewrite ia_ok by lia. cbn [bind].
      rewrite ia_ok by lia. cbn [bind]. rewrite Z.quot_div_nonneg by lia.
      assert (0 <= (s3 + s4 + 1) / 2 <= 8) by (clear -R1 R2 R3 R4; dlia).
      rewrite swrap8_id by lia. auto.
Qed.

Lemma apply2_ok buf : zlen buf = 32 ->
  exists buf', applicate_color_2bpp m info buf = Ok buf' /\ zlen buf' = 32 /\
    forall t, 0 <= t < 32 -> znth buf' t = pvr2_pixel blk nbx nby (bx * 8 + t mod 8) (by_ * 4 + t / 8).
Proof.
  intros Lb. unfold applicate_color_2bpp.
  match goal with |- context [for_range 0 4 (fun y st => for_range 0 8 (@?f y) st) (?l0, 0)] => set (body := f);
    destruct (fill2 ([0; 0; 0; 0], [0; 0; 0; 0]) 8 4 body (pair_at 8) l0) as (clr & E & Lc & Hc) end.
  - lia.
  - lia.
  - vm_compute. discriminate.
  - intros y x l Hy Hx Hl Hk. unfold body. cbv beta iota.
    rewrite (idx_row8 x Hx), (proj2 (idx_row4 y Hy)). cbn [bind].
    pose proof (clr_a_ok 8 x y (or_intror eq_refl) Hx Hy) as A. pose proof (clr_b_ok 8 x y (or_intror eq_refl) Hx Hy) as B.
    unfold sh1, sh2, sh3, sh4 in *. cbn [Z.eqb Pos.eqb] in *. rewrite A. cbn [bind]. rewrite B. cbn [bind].
    rewrite upd_ok by lia. cbn [bind]. rewrite ua_ok by (change (zlen (repeat ([0; 0; 0; 0], [0; 0; 0; 0]) 32)) with 32 in *; lia).
    cbn [bind]. unfold pair_at.
    replace ((8 * y + x) mod 8) with x by (apply Z.mod_unique with y; lia).
    replace ((8 * y + x) / 8) with y by (apply Z.div_unique with x; lia). reflexivity.
  - match goal with |- context [bind (for_range 0 4 ?f (?l0, 0)) _] =>
      change (for_range 0 4 f (l0, 0)) with (for_range 0 4 (fun y st => for_range 0 8 (body y) st) (l0, 0)) end.
    rewrite E. cbn [bind]. change (zlen (repeat ([0; 0; 0; 0], [0; 0; 0; 0]) 32)) with 32 in Lc. clear E body.
    rewrite idx_T by lia. cbn [bind].
    destruct (H2 4 ltac:(lia)) as (_ & _ & Lw & _ & Tp). rewrite Tp.
    set (I := fun k (st : list Z * list Z * Z * Z) => let '(b, w, flag, i) := st in zlen b = 32 /\ zlen w = 32 /\ flag = 0 /\ i = k /\
        (forall t, k <= t < 32 -> znth w t = znth (tw (T 4)) t) /\
        forall t, 0 <= t < k -> znth b t = pvr2_pixel blk nbx nby (bx * 8 + t mod 8) (by_ * 4 + t / 8)).
    match goal with |- context [for_range 0 4 ?f ?s0] =>
      destruct (for_range_inv (fun y => I (8 * y)) 0 4 f s0) as ([[[b w] flag] i] & E & L & _ & _ & _ & _ & H) end.
    + lia.
    + unfold I. change (8 * 0) with 0. repeat split; auto; intros; lia.
    + intros y st Hy HI.
      match goal with |- context [for_range 0 8 ?f ?s0] =>
        destruct (for_range_inv (fun x => I (8 * y + x)) 0 8 f s0) as (st' & E & HI') end.
      * lia.
      * rewrite Z.add_0_r. auto.
      * intros x [[[b w] flag] i] Hx (L & L' & -> & -> & Hw & H). cbv beta iota.
        rewrite idx_ok by lia. cbn [bind]. rewrite Hw by lia.
        destruct (weight2_ok x y Hx Hy) as [EW RW]. cbv zeta in EW, RW. rewrite EW. cbn [bind].
        rewrite upd_ok by lia. cbn [bind].
        rewrite (idx_ok_d ([0; 0; 0; 0], [0; 0; 0; 0])) by lia. cbn [bind]. rewrite Hc by lia.
        unfold pair_at. cbn [fst snd].
        replace ((8 * y + x) mod 8) with x by (apply Z.mod_unique with y; lia).
        replace ((8 * y + x) / 8) with y by (apply Z.div_unique with x; lia).
        rewrite (pixel_ok 8 _ _ _ _ false) by (auto; reflexivity).
        cbn [bind]. rewrite upd_ok by lia. cbn [bind]. rewrite ua_ok by lia. cbn [bind]. rewrite ushr_ok by lia. cbn [bind].
        eexists; split; [reflexivity|]. unfold I. rewrite !zlen_replace_nth.
        split; [auto|]. split; [auto|]. split; [reflexivity|]. split; [lia|]. split.
        -- intros t Ht. rewrite znth_replace by lia. destruct (Z.eqb_spec t (8 * y + x)); [lia|]. apply Hw. lia.
        -- intros t Ht. rewrite znth_replace by lia. destruct (Z.eqb_spec t (8 * y + x)) as [->|N]; [|apply H; lia].
           replace ((8 * y + x) mod 8) with x by (apply Z.mod_unique with y; lia).
           replace ((8 * y + x) / 8) with y by (apply Z.div_unique with x; lia). reflexivity.
      * exists st'. split; [auto|]. replace (8 * (y + 1)) with (8 * y + 8) by lia. auto.
    + rewrite E. cbn [bind]. exists b. auto.
Qed.

End Block.
