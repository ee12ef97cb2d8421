(** * Proofs about moved PVRTC textures and equal end points. *)
From Verif Require Import Base BaseLemmas ModelColor SpecImage SpecBc SpecEtc SpecPvrtc SpecPvrShift ProofCut.

Section Shift.
Context (bw nbx nby dx dy : Z) (Hbw : bw = 4 \/ bw = 8) (Hx : 0 < nbx) (Hy : 0 < nby).
Context (blk blk2 : Z -> Z -> list Z).
Hypothesis Hblk : forall i j, 0 <= i < nbx -> 0 <= j < nby -> blk2 i j = blk ((i + dx) mod nbx) ((j + dy) mod nby).

(** A coordinate moved by [d] blocks of size [b] on a circle of [n] blocks. *)
Lemma moved b n d x : 0 < b -> 0 < n -> exists k, (x + b * d) mod (b * n) = x + b * (d + n * k).
Proof.
  intros Hb Hn. assert (b * n <> 0) by (apply Z.neq_mul_0; lia). exists (- ((x + b * d) / (b * n))).
  pose proof (Z.div_mod (x + b * d) (b * n) H). lia.
Qed.
Lemma wrap_index n i k : 0 < n -> (i + n * k) mod n = i mod n.
Proof. intros Hn. rewrite (Z.mul_comm n k). apply Z.mod_add. lia. Qed.
Lemma moved_div b x e c : 0 < b -> (x + b * e - c) / b = (x - c) / b + e.
Proof. intros Hb. replace (x + b * e - c) with (x - c + e * b) by ring. apply Z.div_add. lia. Qed.
Lemma moved_mod b x e c : 0 < b -> (x + b * e - c) mod b = (x - c) mod b.
Proof. intros Hb. replace (x + b * e - c) with (x - c + e * b) by ring. apply Z.mod_add. lia. Qed.
Lemma moved_div0 b x e : 0 < b -> (x + b * e) / b = x / b + e.
Proof. intros Hb. rewrite (Z.mul_comm b e). apply Z.div_add. lia. Qed.
Lemma moved_mod0 b x e : 0 < b -> (x + b * e) mod b = x mod b.
Proof. intros Hb. rewrite (Z.mul_comm b e). apply Z.mod_add. lia. Qed.

Lemma moved_block i j k l : blk2 (i mod nbx) (j mod nby) = blk ((i + (dx + nbx * k)) mod nbx) ((j + (dy + nby * l)) mod nby).
Proof.
  rewrite Hblk by (apply Z.mod_pos_bound; assumption). rewrite !Z.add_mod_idemp_l by lia. rewrite !Z.add_assoc, !wrap_index by assumption. reflexivity.
Qed.
Lemma bilinear_moved (f : list Z -> Z) x y k l :
  bilinear bw nbx nby (fun i j => f (blk2 i j)) x y = bilinear bw nbx nby (fun i j => f (blk i j)) (x + bw * (dx + nbx * k)) (y + 4 * (dy + nby * l)).
Proof.
  unfold bilinear. assert (0 < bw) as Pb by lia. rewrite moved_div, moved_mod by exact Pb. rewrite moved_div, moved_mod by lia. cbn zeta.
  rewrite !(moved_block _ _ k l). rewrite <- !(Z.add_assoc _ 1 (dx + nbx * k)), <- !(Z.add_assoc _ 1 (dy + nby * l)).
  rewrite !(Z.add_comm 1 (dx + nbx * k)), !(Z.add_comm 1 (dy + nby * l)). rewrite !Z.add_assoc. reflexivity.
Qed.
Lemma up_moved (g : list Z -> Z -> Z) c x y k l :
  pvr_up bw nbx nby (fun i j => g (blk2 i j)) c x y = pvr_up bw nbx nby (fun i j => g (blk i j)) c (x + bw * (dx + nbx * k)) (y + 4 * (dy + nby * l)).
Proof. unfold pvr_up. rewrite (bilinear_moved (fun b => g b c) x y k l). reflexivity. Qed.
Lemma channel_moved mv c x y k l :
  pvr_channel bw nbx nby blk2 mv c x y = pvr_channel bw nbx nby blk mv c (x + bw * (dx + nbx * k)) (y + 4 * (dy + nby * l)).
Proof. unfold pvr_channel. rewrite (up_moved pvr_a c x y k l), (up_moved pvr_b c x y k l). reflexivity. Qed.

(** The block of a pixel. *)
Lemma own_block x y k l : 0 <= x < bw * nbx -> 0 <= y < 4 * nby -> 0 <= x + bw * (dx + nbx * k) < bw * nbx -> 0 <= y + 4 * (dy + nby * l) < 4 * nby ->
  blk2 (x / bw) (y / 4) = blk ((x + bw * (dx + nbx * k)) / bw) ((y + 4 * (dy + nby * l)) / 4).
Proof.
  intros X Y X2 Y2. assert (0 < bw) as Pb by lia.
  assert (0 <= x / bw < nbx) as A by (split; [apply Z.div_pos; lia|apply Z.div_lt_upper_bound; lia]).
  assert (0 <= y / 4 < nby) as B by (split; [apply Z.div_pos; lia|apply Z.div_lt_upper_bound; lia]).
  assert (0 <= (x + bw * (dx + nbx * k)) / bw < nbx) as A2 by (split; [apply Z.div_pos; lia|apply Z.div_lt_upper_bound; lia]).
  assert (0 <= (y + 4 * (dy + nby * l)) / 4 < nby) as B2 by (split; [apply Z.div_pos; lia|apply Z.div_lt_upper_bound; lia]).
  rewrite moved_div0 in A2 |- * by exact Pb. rewrite moved_div0 in B2 |- * by lia.
  rewrite <- (Z.mod_small (x / bw) nbx A) at 1. rewrite <- (Z.mod_small (y / 4) nby B) at 1. rewrite (moved_block _ _ k l).
  rewrite (Z.mod_small _ _ A2), (Z.mod_small _ _ B2). reflexivity.
Qed.
End Shift.

Lemma shift4 nbx nby dx dy blk blk2 x y k l : 0 < nbx -> 0 < nby ->
  (forall i j, 0 <= i < nbx -> 0 <= j < nby -> blk2 i j = blk ((i + dx) mod nbx) ((j + dy) mod nby)) ->
  0 <= x < 4 * nbx -> 0 <= y < 4 * nby -> 0 <= x + 4 * (dx + nbx * k) < 4 * nbx -> 0 <= y + 4 * (dy + nby * l) < 4 * nby ->
  pvr4_pixel blk2 nbx nby x y = pvr4_pixel blk nbx nby (x + 4 * (dx + nbx * k)) (y + 4 * (dy + nby * l)).
Proof.
  intros Hx Hy HB X Y X2 Y2. unfold pvr4_pixel. cbn zeta. rewrite (own_block 4 nbx nby dx dy (or_introl eq_refl) Hx Hy blk blk2 HB x y k l X Y X2 Y2).
  rewrite !moved_mod0 by lia. rewrite !(channel_moved 4 nbx nby dx dy (or_introl eq_refl) Hx Hy blk blk2 HB _ _ x y k l). reflexivity.
Qed.

Lemma stored_moved nbx nby dx dy blk blk2 x y k l : 0 < nbx -> 0 < nby ->
  (forall i j, 0 <= i < nbx -> 0 <= j < nby -> blk2 i j = blk ((i + dx) mod nbx) ((j + dy) mod nby)) ->
  stored2_at blk2 nbx nby x y = stored2_at blk nbx nby (x + 8 * (dx + nbx * k)) (y + 4 * (dy + nby * l)).
Proof.
  intros Hx Hy HB. unfold stored2_at. cbn zeta.
  set (x1 := x mod (8 * nbx)). set (y1 := y mod (4 * nby)).
  assert (0 <= x1 < 8 * nbx) as X by (apply Z.mod_pos_bound; lia). assert (0 <= y1 < 4 * nby) as Y by (apply Z.mod_pos_bound; lia).
  set (x2 := (x + 8 * (dx + nbx * k)) mod (8 * nbx)). set (y2 := (y + 4 * (dy + nby * l)) mod (4 * nby)).
  assert (0 <= x2 < 8 * nbx) as X2 by (apply Z.mod_pos_bound; lia). assert (0 <= y2 < 4 * nby) as Y2 by (apply Z.mod_pos_bound; lia).
  assert (exists u, x2 = x1 + 8 * (dx + nbx * u)) as (u & U).
  { exists (k + x / (8 * nbx) - (x + 8 * (dx + nbx * k)) / (8 * nbx)). pose proof (Z.div_mod x (8 * nbx) ltac:(lia)) as E1. pose proof (Z.div_mod (x + 8 * (dx + nbx * k)) (8 * nbx) ltac:(lia)) as E2.
    fold x1 in E1. fold x2 in E2. lia. }
  assert (exists v, y2 = y1 + 4 * (dy + nby * v)) as (v & V).
  { exists (l + y / (4 * nby) - (y + 4 * (dy + nby * l)) / (4 * nby)). pose proof (Z.div_mod y (4 * nby) ltac:(lia)) as E1. pose proof (Z.div_mod (y + 4 * (dy + nby * l)) (4 * nby) ltac:(lia)) as E2.
    fold y1 in E1. fold y2 in E2. lia. }
  clearbody x2 y2. subst x2 y2. rewrite (own_block 8 nbx nby dx dy (or_intror eq_refl) Hx Hy blk blk2 HB x1 y1 u v X Y X2 Y2).
  rewrite !moved_mod0 by lia. reflexivity.
Qed.
Lemma shift2 nbx nby dx dy blk blk2 x y k l : 0 < nbx -> 0 < nby ->
  (forall i j, 0 <= i < nbx -> 0 <= j < nby -> blk2 i j = blk ((i + dx) mod nbx) ((j + dy) mod nby)) ->
  0 <= x < 8 * nbx -> 0 <= y < 4 * nby -> 0 <= x + 8 * (dx + nbx * k) < 8 * nbx -> 0 <= y + 4 * (dy + nby * l) < 4 * nby ->
  pvr2_pixel blk2 nbx nby x y = pvr2_pixel blk nbx nby (x + 8 * (dx + nbx * k)) (y + 4 * (dy + nby * l)).
Proof.
  intros Hx Hy HB X Y X2 Y2.
  assert (forall a b, stored2_at blk2 nbx nby (x + a) (y + b) = stored2_at blk nbx nby (x + 8 * (dx + nbx * k) + a) (y + 4 * (dy + nby * l) + b)) as S.
  { intros a b. rewrite (stored_moved nbx nby dx dy blk blk2 (x + a) (y + b) k l Hx Hy HB). f_equal; ring. }
  assert (mod2 blk2 nbx nby x y = mod2 blk nbx nby (x + 8 * (dx + nbx * k)) (y + 4 * (dy + nby * l))) as M.
  { unfold mod2. cbn zeta. rewrite (own_block 8 nbx nby dx dy (or_intror eq_refl) Hx Hy blk blk2 HB x y k l X Y X2 Y2).
    pose proof (S 0 0) as S00. pose proof (S 0 (-1)) as S0m. pose proof (S 0 1) as S01. pose proof (S (-1) 0) as Sm0. pose proof (S 1 0) as S10.
    rewrite !Z.add_0_r in S00, S0m, S01, Sm0, S10. unfold Z.sub. change (- (1)) with (-1). rewrite S00, S0m, S01, Sm0, S10.
    replace ((x + 8 * (dx + nbx * k) + (y + 4 * (dy + nby * l))) mod 2) with ((x + y) mod 2); [rewrite ?Z.add_0_r; reflexivity|].
    replace (x + 8 * (dx + nbx * k) + (y + 4 * (dy + nby * l))) with (x + y + (4 * (dx + nbx * k) + 2 * (dy + nby * l)) * 2) by ring. rewrite Z.mod_add by lia. reflexivity. }
  unfold pvr2_pixel. cbn zeta. rewrite M. rewrite !(channel_moved 8 nbx nby dx dy (or_intror eq_refl) Hx Hy blk blk2 HB _ _ x y k l). reflexivity.
Qed.

Lemma full_blocks b n : 0 < b -> blocks (b * n) b = n.
Proof. intros Hb. pose proof (blocks_shift 0 b n Hb) as H. rewrite Z.add_0_r in H. rewrite H. unfold blocks. rewrite Z.div_small by lia. lia. Qed.
Lemma shifts bw pix dec : bw = 4 \/ bw = 8 -> pvr_decoder bw pix dec ->
  (forall nbx nby dx dy blk blk2 x y k l, 0 < nbx -> 0 < nby ->
    (forall i j, 0 <= i < nbx -> 0 <= j < nby -> blk2 i j = blk ((i + dx) mod nbx) ((j + dy) mod nby)) ->
    0 <= x < bw * nbx -> 0 <= y < 4 * nby -> 0 <= x + bw * (dx + nbx * k) < bw * nbx -> 0 <= y + 4 * (dy + nby * l) < 4 * nby ->
    pix blk2 nbx nby x y = pix blk nbx nby (x + bw * (dx + nbx * k)) (y + 4 * (dy + nby * l))) ->
  pvr_shifts bw dec.
Proof.
  intros Hbw HD HP data1 data2 w h image1 image2 p q dx dy S1 S2 Hp Hq Ew Eh L1 L2 I1 I2 HB.
  assert (0 < bw) as Pb by lia. assert (0 < 2 ^ p) as Pp by (apply Z.pow_pos_nonneg; lia). assert (0 < 2 ^ q) as Pq by (apply Z.pow_pos_nonneg; lia).
  assert (blocks w bw = 2 ^ p) as Bw by (rewrite Ew; apply full_blocks, Pb). assert (blocks h 4 = 2 ^ q) as Bh by (rewrite Eh; apply full_blocks; lia).
  destruct (HD data1 w h image1 p q S1 Hp Hq Bw Bh ltac:(rewrite Bw, Bh; exact L1) I1) as (i1 & E1 & _ & P1 & _).
  destruct (HD data2 w h image2 p q S2 Hp Hq Bw Bh ltac:(rewrite Bw, Bh; exact L2) I2) as (i2 & E2 & _ & P2 & _).
  exists i1, i2. split; [exact E1|]. split; [exact E2|]. intros x y X Y. rewrite P2 by assumption.
  assert (0 <= (x + bw * dx) mod w < w) as X2 by (apply Z.mod_pos_bound; lia). assert (0 <= (y + 4 * dy) mod h < h) as Y2 by (apply Z.mod_pos_bound; lia).
  rewrite P1 by assumption. rewrite Ew in X, X2 |- *. rewrite Eh in Y, Y2 |- *.
  destruct (moved bw (2 ^ p) dx x Pb Pp) as (k & K). destruct (moved 4 (2 ^ q) dy y ltac:(lia) Pq) as (l & L). rewrite K in X2 |- *. rewrite L in Y2 |- *.
  apply HP; assumption.
Qed.

(** ** Equal end points *)
Lemma bilinear_even bw nbx nby col v x y : 0 < nbx -> 0 < nby -> (forall i j, 0 <= i < nbx -> 0 <= j < nby -> col i j = v) -> bilinear bw nbx nby col x y = 4 * bw * v.
Proof.
  intros Hx Hy HC. unfold bilinear. cbn zeta. rewrite !HC by (apply Z.mod_pos_bound; assumption). ring.
Qed.
Lemma up_even bw nbx nby col c v x y : bw = 4 \/ bw = 8 -> 0 < nbx -> 0 < nby -> (forall i j, 0 <= i < nbx -> 0 <= j < nby -> col i j c = v) ->
  pvr_up bw nbx nby col c x y = if c =? 3 then rep4 v else rep5 v.
Proof.
  intros Hb Hx Hy HC. unfold pvr_up. rewrite (bilinear_even bw nbx nby (fun i j => col i j c) v x y Hx Hy HC). cbn zeta. unfold rep4, rep5.
  destruct Hb as [->| ->]; [change (4 =? 4) with true|change (8 =? 4) with false]; cbn iota; destruct (c =? 3); Z.to_euclidean_division_equations; lia.
Qed.
Lemma channel_even bw nbx nby blk (a b : Z -> Z) mv c x y : bw = 4 \/ bw = 8 -> 0 < nbx -> 0 < nby -> 0 <= c < 4 ->
  (forall i j c, 0 <= i < nbx -> 0 <= j < nby -> 0 <= c < 4 -> pvr_a (blk i j) c = a c /\ pvr_b (blk i j) c = b c) ->
  pvr_channel bw nbx nby blk mv c x y = if c =? 3 then pvr_blend (rep4 (a c)) (rep4 (b c)) mv else pvr_blend (rep5 (a c)) (rep5 (b c)) mv.
Proof.
  intros Hb Hx Hy Hc HC. unfold pvr_channel.
  rewrite (up_even bw nbx nby (fun i j => pvr_a (blk i j)) c (a c) x y Hb Hx Hy) by (intros i j Hi Hj; exact (proj1 (HC i j c Hi Hj Hc))).
  rewrite (up_even bw nbx nby (fun i j => pvr_b (blk i j)) c (b c) x y Hb Hx Hy) by (intros i j Hi Hj; exact (proj2 (HC i j c Hi Hj Hc))).
  destruct (c =? 3); reflexivity.
Qed.
Lemma even bw pix mv clear dec : bw = 4 \/ bw = 8 -> pvr_decoder bw pix dec ->
  (forall blk nbx nby a b x y, 0 < nbx -> 0 < nby -> (forall i j c, 0 <= i < nbx -> 0 <= j < nby -> 0 <= c < 4 -> pvr_a (blk i j) c = a c /\ pvr_b (blk i j) c = b c) ->
     pix blk nbx nby x y = even_pixel a b (mv blk nbx nby x y) (clear blk x y)) ->
  pvr_even bw mv clear dec.
Proof.
  intros Hb HD HP data w h image p q a b S Hp Hq Bw Bh L I HC.
  destruct (HD data w h image p q S Hp Hq Bw Bh L I) as (image' & E & _ & P & _). exists image'. split; [exact E|]. intros x y X Y. rewrite P by assumption.
  apply HP; [apply Z.pow_pos_nonneg; lia|apply Z.pow_pos_nonneg; lia|exact HC].
Qed.
Lemma even4 blk nbx nby a b x y : 0 < nbx -> 0 < nby -> (forall i j c, 0 <= i < nbx -> 0 <= j < nby -> 0 <= c < 4 -> pvr_a (blk i j) c = a c /\ pvr_b (blk i j) c = b c) ->
  pvr4_pixel blk nbx nby x y = even_pixel a b (mod4_at blk nbx nby x y) (clear4_at blk x y).
Proof.
  intros Hx Hy HC. unfold pvr4_pixel, even_pixel, mod4_at, clear4_at. cbn zeta. rewrite !(channel_even 4 nbx nby blk a b) by (assumption || lia || (left; reflexivity)). reflexivity.
Qed.
Lemma even2 blk nbx nby a b x y : 0 < nbx -> 0 < nby -> (forall i j c, 0 <= i < nbx -> 0 <= j < nby -> 0 <= c < 4 -> pvr_a (blk i j) c = a c /\ pvr_b (blk i j) c = b c) ->
  pvr2_pixel blk nbx nby x y = even_pixel a b (mod2 blk nbx nby x y) (clear2_at blk x y).
Proof.
  intros Hx Hy HC. unfold pvr2_pixel, even_pixel, clear2_at. cbn zeta. rewrite !(channel_even 8 nbx nby blk a b) by (assumption || lia || (right; reflexivity)). reflexivity.
Qed.
