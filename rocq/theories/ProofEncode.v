(** * Proofs about the pictures a format can store. *)
From Verif Require Import Base BaseLemmas ModelColor SpecImage SpecBc SpecCut ProofCut SpecEncode.

(** Finitely many choices. *)
Lemma choices {A} (d : A) (P : Z -> A -> Prop) n : 0 <= n -> (forall k, 0 <= k < n -> exists a, P k a) ->
  exists l, zlen l = n /\ forall k, 0 <= k < n -> P k (nth (Z.to_nat k) l d).
Proof.
  intros Hn. pattern n. apply natlike_ind; [| |exact Hn].
  - intros _. exists []. split; [reflexivity|lia].
  - intros k Hk IH H. destruct IH as (l & L & Pl); [intros j Hj; apply H; lia|]. destruct (H k) as (a & Pa); [lia|].
    exists (l ++ [a]). rewrite zlen_app, L. split; [unfold zlen; cbn [length]; lia|].
    intros j Hj. unfold zlen in L. destruct (Z.eq_dec j k) as [->|E].
    + subst k. rewrite Nat2Z.id, app_nth2, Nat.sub_diag by lia. exact Pa.
    + rewrite app_nth1 by lia. apply Pl. lia.
Qed.
Lemma blocks_written raw (P : Z -> list Z -> Prop) n : 0 < raw -> 0 <= n ->
  (forall k, 0 <= k < n -> exists b, bytes b /\ zlen b = raw /\ P k b) ->
  exists data, bytes data /\ zlen data = n * raw /\ forall k, 0 <= k < n -> P k (block_bytes raw k data).
Proof.
  intros Hraw Hn. pattern n. apply natlike_ind; [| |exact Hn].
  - intros _. exists []. split; [constructor|]. split; [reflexivity|lia].
  - intros k Hk IH H. destruct IH as (l & Bl & L & Pl); [intros j Hj; apply H; lia|]. destruct (H k) as (b & Bb & Lb & Pb); [lia|].
    exists (l ++ b). rewrite zlen_app, L, Lb. split; [apply Forall_app; split; assumption|]. split; [lia|].
    intros j Hj. unfold block_bytes. rewrite skipn_app, firstn_app.
    assert (length l = Z.to_nat (k * raw)) as L' by (unfold zlen in L; lia). assert (length b = Z.to_nat raw) as Lb' by (unfold zlen in Lb; lia).
    assert (raw * j <= raw * k) as M by (apply Z.mul_le_mono_nonneg_l; lia).
    destruct (Z.eq_dec j k) as [->|E].
    + rewrite skipn_all2 by lia. rewrite (Z.mul_comm raw k), L', Nat.sub_diag, firstn_nil, skipn_O. cbn [app length]. rewrite Nat.sub_0_r, <- Lb', firstn_all. exact Pb.
    + assert (raw * (j + 1) <= raw * k) as M' by (apply Z.mul_le_mono_nonneg_l; lia).
      replace (firstn (Z.to_nat raw - length (skipn (Z.to_nat (raw * j)) l)) (skipn (Z.to_nat (raw * j) - length l) b)) with (@nil Z).
      * rewrite app_nil_r. apply Pl. lia.
      * rewrite skipn_length, L'. assert (0 <= raw * j) by (apply Z.mul_nonneg_nonneg; lia).
        replace (Z.to_nat raw - (Z.to_nat (k * raw) - Z.to_nat (raw * j)))%nat with 0%nat by lia. reflexivity.
Qed.

Lemma block_pos n b k : 0 < b -> 0 <= k < blocks n b -> b * k < n.
Proof.
  intros Hb Hk. unfold blocks in Hk. pose proof (Z.div_mod (n + b - 1) b ltac:(lia)). pose proof (Z.mod_pos_bound (n + b - 1) b Hb).
  assert (b * (k + 1) <= b * ((n + b - 1) / b)) by (apply Z.mul_le_mono_nonneg_l; lia). lia.
Qed.

Definition fits (bw bh raw : Z) (good : list Z -> Prop) (tex : list Z -> Z -> Z) (w h : Z) (pic : Z -> Z -> Z) : Prop :=
  forall bx by_, 0 <= bx < blocks w bw -> 0 <= by_ < blocks h bh -> exists b, bytes b /\ zlen b = raw /\ good b /\
    forall x y, 0 <= x < w -> 0 <= y < h -> x / bw = bx -> y / bh = by_ -> tex b (y mod bh * bw + x mod bw) = pic x y.

Lemma store bw bh raw good tex dec w h pic : decodes_good bw bh raw good tex dec -> 0 < bw -> 0 < bh -> 0 < raw ->
  0 <= w < 2 ^ 64 -> 0 <= h < 2 ^ 64 -> blocks w bw * blocks h bh * raw < 2 ^ 63 -> 4 * (w * h) < 2 ^ 63 -> fits bw bh raw good tex w h pic ->
  exists data, bytes data /\ zlen data = blocks w bw * blocks h bh * raw /\
    forall image, w * h <= zlen image -> 4 * zlen image < 2 ^ 63 ->
      exists image', dec data w h image = Ok (Done, image') /\ shows image' w h pic.
Proof.
  intros HD Hbw Hbh Hraw Hw Hh HZ HA HF.
  pose proof (blocks_nonneg w bw Hbw ltac:(lia)) as Nw. pose proof (blocks_nonneg h bh Hbh ltac:(lia)) as Nh.
  set (n := blocks h bh * blocks w bw).
  assert (0 <= n) as Hn by (apply Z.mul_nonneg_nonneg; lia).
  destruct (blocks_written raw (fun k b => good b /\ forall x y, 0 <= x < w -> 0 <= y < h -> y / bh * blocks w bw + x / bw = k -> tex b (y mod bh * bw + x mod bw) = pic x y) n Hraw Hn) as (data & B & L & P).
  - intros k Hk. assert (0 < blocks w bw) as N1 by (unfold n in Hk; destruct (Z.eq_dec (blocks w bw) 0) as [e|e]; [rewrite e, Z.mul_0_r in Hk; lia|lia]).
    pose proof (Z.div_mod k (blocks w bw) ltac:(lia)) as DM. pose proof (Z.mod_pos_bound k (blocks w bw) N1) as MB.
    assert (0 <= k / blocks w bw < blocks h bh) as Q by (split; [apply Z.div_pos; lia|apply Z.div_lt_upper_bound; [lia|unfold n in Hk; lia]]).
    destruct (HF (k mod blocks w bw) (k / blocks w bw) MB Q) as (b & Bb & Lb & Gb & Tb). exists b. split; [exact Bb|]. split; [exact Lb|]. split; [exact Gb|].
    intros x y Hx Hy E. pose proof (blocks_above w bw x Hbw Hx) as X1.
    apply Tb; [exact Hx|exact Hy| |]; rewrite <- E.
    + rewrite Z.add_comm, Z.mod_add by lia. rewrite (Z.mod_small (x / bw) (blocks w bw) X1). reflexivity.
    + rewrite Z.div_add_l by lia. rewrite (Z.div_small (x / bw) (blocks w bw) X1). lia.
  - exists data. split; [exact B|]. split; [unfold n in L; lia|]. intros image HI H4.
    assert (sized bw bh raw data w h image) as S by (unfold sized; repeat split; try assumption; lia).
    destruct (HD data w h image S) as (_ & _ & D3).
    destruct D3 as (image' & E & PI & PP & PF); [unfold n in L; lia|exact HI| |].
    + intros k Hk. apply P. unfold n. lia.
    + exists image'. split; [exact E|]. intros x y Hx Hy. rewrite PP by assumption.
      pose proof (blocks_above w bw x Hbw Hx) as X1. pose proof (blocks_above h bh y Hbh Hy) as Y1.
      apply P; [|assumption|assumption|reflexivity]. unfold n. apply below_product; assumption.
Qed.

(** The 4x4 formats with end points. *)
Lemma exactly {A} raw tex dec (ends : A -> Prop) (colour : A -> Z -> Prop) : image_decoder 4 4 raw tex dec -> 0 < raw ->
  (forall b, bytes b -> zlen b = raw -> exists a, ends a /\ forall t, 0 <= t < 16 -> colour a (tex b t)) ->
  (forall a, ends a -> exists v, colour a v) ->
  (forall a c, ends a -> (forall t, 0 <= t < 16 -> colour a (c t)) -> exists b, bytes b /\ zlen b = raw /\ forall t, 0 <= t < 16 -> tex b t = c t) ->
  stores_exactly raw ends colour dec.
Proof.
  intros HD Hraw H1 H0 H2 w h pic Hw Hh HZ HA. split.
  - intros HS. apply (store 4 4 raw (fun _ => True) tex dec w h pic (decodes_all _ _ _ _ _ HD) ltac:(lia) ltac:(lia) Hraw Hw Hh HZ HA).
    intros bx by_ Hx Hy. destruct (HS bx by_) as (a & Ha & Hc); try lia; try (apply block_pos; lia).
    destruct (H0 a Ha) as (v & Hv).
    destruct (H2 a (fun t => if ((4 * bx + t mod 4 <? w) && (4 * by_ + t / 4 <? h))%bool then pic (4 * bx + t mod 4) (4 * by_ + t / 4) else v) Ha) as (b & B & L & T).
    + intros t Ht. destruct ((4 * bx + t mod 4 <? w) && (4 * by_ + t / 4 <? h))%bool eqn:E; [|exact Hv]. apply andb_prop in E. destruct E as [E1 E2]. apply Z.ltb_lt in E1, E2.
      assert (0 <= t mod 4 < 4 /\ 0 <= t / 4 < 4) as M by (clear - Ht; Z.to_euclidean_division_equations; lia). apply Hc; [lia|lia|exact E1|exact E2].
    + exists b. split; [exact B|]. split; [exact L|]. split; [exact I|]. intros x y Hx' Hy' Ex Ey.
      rewrite T by (clear; Z.to_euclidean_division_equations; lia).
      replace ((y mod 4 * 4 + x mod 4) mod 4) with (x mod 4) by (clear; Z.to_euclidean_division_equations; lia).
      replace ((y mod 4 * 4 + x mod 4) / 4) with (y mod 4) by (clear; Z.to_euclidean_division_equations; lia).
      replace (4 * bx + x mod 4) with x by (clear - Ex; Z.to_euclidean_division_equations; lia).
      replace (4 * by_ + y mod 4) with y by (clear - Ey; Z.to_euclidean_division_equations; lia).
      rewrite (proj2 (Z.ltb_lt x w)), (proj2 (Z.ltb_lt y h)) by lia. reflexivity.
  - intros data image image' B H4 E S bx by_ Hx Hy Px Py.
    destruct (decodes_done 4 4 raw (fun _ => True) tex dec data w h image image' (decodes_all _ _ _ _ _ HD)) as (R & RI & _ & PP & _); [unfold sized; repeat split; try assumption; lia|intros k Hk; exact I|exact E|].
    pose proof (blocks_above w 4 (4 * bx) ltac:(lia) ltac:(lia)) as X1. pose proof (blocks_above h 4 (4 * by_) ltac:(lia) ltac:(lia)) as Y1.
    rewrite (Z.mul_comm 4 bx), Z.div_mul in X1 by lia. rewrite (Z.mul_comm 4 by_), Z.div_mul in Y1 by lia.
    pose proof (below_product by_ bx (blocks h 4) (blocks w 4) Y1 X1) as K.
    assert (zlen (block_bytes raw (by_ * blocks w 4 + bx) data) = raw) as L.
    { unfold block_bytes. rewrite zlen_firstn, zlen_skipn.
      assert (0 <= raw * (by_ * blocks w 4 + bx)) by (apply Z.mul_nonneg_nonneg; lia).
      pose proof (Z.mul_le_mono_nonneg_r (by_ * blocks w 4 + bx + 1) (blocks h 4 * blocks w 4) raw ltac:(lia) ltac:(lia)). rewrite !Z2Nat.id by lia. lia. }
    destruct (H1 (block_bytes raw (by_ * blocks w 4 + bx) data)) as (a & Ha & Hc); [unfold block_bytes; apply bytes_firstn, bytes_skipn, B|exact L|].
    exists a. split; [exact Ha|]. intros x y Ix Iy Lx Ly. rewrite <- S by lia. rewrite PP by lia.
    replace (y / 4) with by_ by (clear - Iy; Z.to_euclidean_division_equations; lia).
    replace (x / 4) with bx by (clear - Ix; Z.to_euclidean_division_equations; lia). apply Hc. clear; Z.to_euclidean_division_equations; lia.
Qed.
