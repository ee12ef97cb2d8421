(** * Proofs about parts of pictures and pictures put together. *)
From Verif Require Import Base BaseLemmas ModelColor SpecImage SpecCut ProofCrnGrid.

Lemma blocks_nonneg n b : 0 < b -> 0 <= n -> 0 <= blocks n b.
Proof. intros Hb Hn. unfold blocks. apply Z.div_pos; lia. Qed.
Lemma blocks_shift n b k : 0 < b -> blocks (b * k + n) b = k + blocks n b.
Proof. intros Hb. unfold blocks. replace (b * k + n + b - 1) with (k * b + (n + b - 1)) by ring. rewrite Z.div_add_l by lia. reflexivity. Qed.
Lemma blocks_mono n n' b : 0 < b -> n <= n' -> blocks n b <= blocks n' b.
Proof. intros Hb Hn. unfold blocks. apply Z.div_le_mono; lia. Qed.
Lemma blocks_above n b x : 0 < b -> 0 <= x < n -> 0 <= x / b < blocks n b.
Proof.
  intros Hb Hx. split; [apply Z.div_pos; lia|]. unfold blocks. apply Z.div_lt_upper_bound; [lia|].
  pose proof (Z.div_mod (n + b - 1) b ltac:(lia)). pose proof (Z.mod_pos_bound (n + b - 1) b Hb). lia.
Qed.
Lemma below_product a b c d : 0 <= a < c -> 0 <= b < d -> 0 <= a * d + b < c * d.
Proof. intros. nia. Qed.

Section Cut.
Context (raw cols bx by_ nx ny : Z) (data : list Z).
Hypothesis (Hraw : 0 < raw) (Hbx : 0 <= bx) (Hby : 0 <= by_) (Hnx : 0 <= nx) (Hny : 0 <= ny) (Hc : bx + nx <= cols).
Hypothesis Hd : cols * (by_ + ny) * raw <= zlen data.

Lemma row_room r : 0 <= r < ny -> raw * ((by_ + r) * cols + bx) + raw * nx <= zlen data.
Proof.
  intros Hr. assert ((by_ + r) * cols + bx + nx <= cols * (by_ + ny)) as A by nia.
  pose proof (Z.mul_le_mono_nonneg_r _ _ raw ltac:(lia) A) as B. replace (raw * ((by_ + r) * cols + bx) + raw * nx) with (((by_ + r) * cols + bx + nx) * raw) by ring. lia.
Qed.
Lemma row_start r c : 0 <= r -> 0 <= c -> 0 <= raw * ((by_ + r) * cols + (bx + c)).
Proof. intros Hr H0. apply Z.mul_nonneg_nonneg; [lia|]. pose proof (Z.mul_nonneg_nonneg (by_ + r) cols ltac:(lia) ltac:(lia)). lia. Qed.
Lemma cut_row_len r : 0 <= r < ny -> zlen (firstn (Z.to_nat (raw * nx)) (skipn (Z.to_nat (raw * ((by_ + r) * cols + bx))) data)) = raw * nx.
Proof.
  intros Hr. pose proof (row_room r Hr). pose proof (row_start r 0 ltac:(lia) ltac:(lia)) as RS. rewrite Z.add_0_r in RS. assert (0 <= raw * nx) by nia.
  rewrite zlen_firstn, zlen_skipn, !Z2Nat.id by lia. lia.
Qed.
Lemma cut_len : zlen (cut raw cols bx by_ nx ny data) = nx * ny * raw.
Proof. unfold cut. rewrite (zlen_flat_map (raw * nx)); [ring|exact Hny|exact cut_row_len]. Qed.
Lemma cut_znth i : 0 <= i < nx * ny * raw -> znth (cut raw cols bx by_ nx ny data) i = znth data (raw * ((by_ + i / (raw * nx)) * cols + bx) + i mod (raw * nx)).
Proof.
  intros Hi. assert (0 < nx) by nia. assert (0 < raw * nx) as Hn by nia. unfold cut. rewrite (znth_flat_map (raw * nx)); [|exact Hny|exact Hn|exact cut_row_len|lia].
  pose proof (Z.mod_pos_bound i (raw * nx) Hn). assert (0 <= i / (raw * nx)) by (apply Z.div_pos; lia).
  rewrite znth_firstn by (rewrite Z2Nat.id; lia). pose proof (row_start (i / (raw * nx)) 0 ltac:(lia) ltac:(lia)) as RS. rewrite Z.add_0_r in RS. rewrite znth_skipn, Z2Nat.id by lia. reflexivity.
Qed.
Lemma cut_bytes : bytes data -> bytes (cut raw cols bx by_ nx ny data).
Proof.
  intros Hb. unfold cut. apply Forall_forall. intros v Hv. apply in_flat_map in Hv. destruct Hv as (r & _ & Hv).
  assert (bytes (firstn (Z.to_nat (raw * nx)) (skipn (Z.to_nat (raw * ((by_ + r) * cols + bx))) data))) as B by (apply bytes_firstn, bytes_skipn, Hb).
  exact (proj1 (Forall_forall _ _) B v Hv).
Qed.
Lemma cut_block r c : 0 <= r < ny -> 0 <= c < nx ->
  block_bytes raw (r * nx + c) (cut raw cols bx by_ nx ny data) = block_bytes raw ((by_ + r) * cols + (bx + c)) data.
Proof.
  intros Hr Hcc. pose proof (below_product r c ny nx Hr Hcc) as K. pose proof (row_room r Hr) as R. assert (0 < raw * nx) as Hn by nia.
  pose proof (row_start r c ltac:(lia) ltac:(lia)) as P1.
  assert (raw * (r * nx + c) + raw <= nx * ny * raw) as P2 by (pose proof (Z.mul_le_mono_nonneg_r (r * nx + c + 1) (ny * nx) raw ltac:(lia) ltac:(lia)); lia).
  assert (raw * ((by_ + r) * cols + (bx + c)) + raw <= zlen data) as P3 by (pose proof (Z.mul_le_mono_nonneg_l (c + 1) nx raw ltac:(lia) ltac:(lia)); lia).
  assert (0 <= raw * (r * nx + c)) as P0 by nia.
  unfold block_bytes. apply znth_ext.
  - rewrite !zlen_firstn, !zlen_skipn, cut_len, !Z2Nat.id by lia. lia.
  - intros i Hi. rewrite zlen_firstn, zlen_skipn, cut_len, !Z2Nat.id in Hi by lia.
    rewrite !znth_firstn, !znth_skipn, !Z2Nat.id by (rewrite ?Z2Nat.id; lia).
    rewrite cut_znth by lia.
    replace (raw * (r * nx + c) + i) with (r * (raw * nx) + (raw * c + i)) by ring.
    assert (0 <= raw * c + i < raw * nx) as P4 by nia.
    rewrite Z.div_add_l, (Z.div_small _ _ P4), (Z.add_comm (r * (raw * nx)) (raw * c + i)), Z.mod_add, (Z.mod_small _ _ P4) by lia.
    f_equal. ring.
Qed.
End Cut.

(** What is needed of the decoder. *)
Definition decodes_good (bw bh raw : Z) (good : list Z -> Prop) (tex : list Z -> Z -> Z) (dec : list Z -> Z -> Z -> list Z -> res (status * list Z)) : Prop :=
  forall data w h image, sized bw bh raw data w h image ->
    (zlen data < blocks w bw * blocks h bh * raw -> exists e i, dec data w h image = Ok (Failed e, i)) /\
    (blocks w bw * blocks h bh * raw <= zlen data -> zlen image < w * h -> exists e i, dec data w h image = Ok (Failed e, i)) /\
    (blocks w bw * blocks h bh * raw <= zlen data -> w * h <= zlen image -> all_blocks bw bh raw good data w h ->
       exists image', dec data w h image = Ok (Done, image') /\ picture bw bh raw tex data w h image image').
Lemma decodes_all bw bh raw tex dec : image_decoder bw bh raw tex dec -> decodes_good bw bh raw (fun _ => True) tex dec.
Proof.
  intros HD data w h image (Hb & HW & HH & HI & HZ & HA). destruct (HD data w h image Hb HW HH HI HZ HA) as (D1 & D2 & D3).
  split; [intros L; eauto|]. split; [intros R L; eauto|]. intros R L _. auto.
Qed.
Lemma decodes_done bw bh raw good tex dec data w h image image' : decodes_good bw bh raw good tex dec -> sized bw bh raw data w h image -> all_blocks bw bh raw good data w h ->
  dec data w h image = Ok (Done, image') -> blocks w bw * blocks h bh * raw <= zlen data /\ w * h <= zlen image /\ picture bw bh raw tex data w h image image'.
Proof.
  intros HD HS HG E. destruct (HD data w h image HS) as (D1 & D2 & D3).
  assert (blocks w bw * blocks h bh * raw <= zlen data) as R by (destruct (Z.ltb_spec (zlen data) (blocks w bw * blocks h bh * raw)) as [L|L]; [destruct (D1 L) as (e & i & F); rewrite F in E; discriminate|exact L]).
  assert (w * h <= zlen image) as RI by (destruct (Z.ltb_spec (zlen image) (w * h)) as [L|L]; [destruct (D2 R L) as (e & i & F); rewrite F in E; discriminate|exact L]).
  destruct (D3 R RI HG) as (i2 & E' & P). assert (i2 = image') as -> by congruence. auto.
Qed.

Lemma parts bw bh raw good tex dec : 0 < bw -> 0 < bh -> 0 < raw -> decodes_good bw bh raw good tex dec -> decodes_parts bw bh raw good dec.
Proof.
  intros Hbw Hbh Hraw HD data W H image image' bx by_ w h small HS HG E Hbx Hby Hw Hh Fx Fy Hs Hsm.
  destruct (decodes_done _ _ _ _ _ _ _ _ _ _ _ HD HS HG E) as (R & _ & P). destruct HS as (Hb & HW & HH & HI & HZ & HA).
  pose proof (blocks_shift w bw bx Hbw) as B1. pose proof (blocks_shift h bh by_ Hbh) as B2.
  pose proof (blocks_mono (bw * bx + w) W bw Hbw Fx) as B3. pose proof (blocks_mono (bh * by_ + h) H bh Hbh Fy) as B4.
  pose proof (blocks_nonneg w bw Hbw Hw) as B5. pose proof (blocks_nonneg h bh Hbh Hh) as B6. pose proof (blocks_nonneg W bw Hbw ltac:(lia)) as B7.
  assert (blocks W bw * (by_ + blocks h bh) * raw <= zlen data) as R2.
  { assert (blocks W bw * (by_ + blocks h bh) <= blocks W bw * blocks H bh) as A by (apply Z.mul_le_mono_nonneg_l; lia). pose proof (Z.mul_le_mono_nonneg_r _ _ raw ltac:(lia) A). lia. }
  pose proof (cut_len raw (blocks W bw) bx by_ (blocks w bw) (blocks h bh) data Hraw Hbx Hby B5 B6 ltac:(lia) R2) as CL.
  pose proof (Z.mul_nonneg_nonneg bw bx ltac:(lia) Hbx) as N1. pose proof (Z.mul_nonneg_nonneg bh by_ ltac:(lia) Hby) as N2.
  assert (blocks w bw * blocks h bh * raw < 2 ^ 64) as Z1.
  { assert (blocks w bw <= blocks W bw) by lia. assert (blocks h bh <= blocks H bh) by lia. assert (blocks w bw * blocks h bh <= blocks W bw * blocks H bh) as A by (apply Z.mul_le_mono_nonneg; lia). pose proof (Z.mul_le_mono_nonneg_r _ _ raw ltac:(lia) A). lia. }
  assert (w * h < 2 ^ 64) as Z2 by (assert (w * h <= W * H) by (apply Z.mul_le_mono_nonneg; lia); lia).
  assert (forall r c, 0 <= r < blocks h bh -> 0 <= c < blocks w bw -> block_bytes raw (r * blocks w bw + c) (cut raw (blocks W bw) bx by_ (blocks w bw) (blocks h bh) data) =
    block_bytes raw ((by_ + r) * blocks W bw + (bx + c)) data) as CB by (apply cut_block; auto; lia).
  destruct (HD (cut raw (blocks W bw) bx by_ (blocks w bw) (blocks h bh) data) w h small) as (_ & _ & G3).
  { split; [apply cut_bytes, Hb|]. split; [lia|]. split; [lia|]. auto. }
  destruct G3 as (small' & Es & P2); [lia|exact Hs| |].
  { intros k Hk. assert (0 < blocks w bw) as Bw by (destruct (Z.eq_dec (blocks w bw) 0) as [Z0|]; [rewrite Z0 in Hk; lia|lia]).
    assert (0 <= k / blocks w bw < blocks h bh) as Kr by (split; [apply Z.div_pos; lia|apply Z.div_lt_upper_bound; lia]). pose proof (Z.mod_pos_bound k (blocks w bw) Bw) as Kc.
    replace k with (k / blocks w bw * blocks w bw + k mod blocks w bw) by (pose proof (Z.div_mod k (blocks w bw)); lia). rewrite CB by assumption.
    apply HG. pose proof (below_product (by_ + k / blocks w bw) (bx + k mod blocks w bw) (blocks H bh) (blocks W bw) ltac:(lia) ltac:(lia)). lia. }
 exists small'. split; [exact Es|]. intros x y Hx Hy.
  destruct P as (_ & P & _). destruct P2 as (_ & P2 & _). rewrite (P2 x y Hx Hy), P by lia.
  rewrite CB by (apply blocks_above; lia).
  replace (bh * by_ + y) with (by_ * bh + y) by ring. replace (bw * bx + x) with (bx * bw + x) by ring.
  rewrite !Z.div_add_l, (Z.add_comm (by_ * bh) y), (Z.add_comm (bx * bw) x), !Z.mod_add by lia. reflexivity.
Qed.

Lemma stacks bw bh raw good tex dec : 0 < bw -> 0 < bh -> 0 < raw -> decodes_good bw bh raw good tex dec -> decodes_stacks bw bh raw good dec.
Proof.
  intros Hbw Hbh Hraw HD data1 data2 w h1 h2 image1 image2 image1' image2' image HS1 HS2 HS HG1 HG2 E1 E2 M L1 Hl.
  destruct (decodes_done _ _ _ _ _ _ _ _ _ _ _ HD HS1 HG1 E1) as (R1 & _ & _ & P1 & _). destruct (decodes_done _ _ _ _ _ _ _ _ _ _ _ HD HS2 HG2 E2) as (R2 & _ & _ & P2 & _).
  pose proof HS1 as (_ & HW & HH1 & _). pose proof HS2 as (_ & _ & HH2 & _).
  set (q := h1 / bh) in *. assert (h1 = bh * q) as Eq by (unfold q; pose proof (Z.div_mod h1 bh); lia).
  assert (0 <= q) as Hq by (unfold q; apply Z.div_pos; lia).
  assert (blocks (h1 + h2) bh = q + blocks h2 bh) as B by (rewrite Eq; apply blocks_shift; lia).
  pose proof (blocks_nonneg w bw Hbw ltac:(lia)) as B5.
  assert (forall k, 0 <= k < q * blocks w bw -> block_bytes raw k (data1 ++ data2) = block_bytes raw k data1) as G1.
  { intros k K. assert (raw * k + raw <= zlen data1) as Rk by (pose proof (Z.mul_le_mono_nonneg_r (k + 1) (q * blocks w bw) raw ltac:(lia) ltac:(lia)); lia).
    pose proof (Z.mul_nonneg_nonneg raw k ltac:(lia) ltac:(lia)). unfold block_bytes.
    rewrite skipn_app, firstn_app. replace (Z.to_nat raw - length (skipn (Z.to_nat (raw * k)) data1))%nat with 0%nat; [rewrite firstn_O, app_nil_r; reflexivity|].
    rewrite skipn_length. unfold zlen in Rk. lia. }
  assert (forall k, 0 <= k -> block_bytes raw (q * blocks w bw + k) (data1 ++ data2) = block_bytes raw k data2) as G2.
  { intros k K. unfold block_bytes. f_equal. pose proof (Z.mul_nonneg_nonneg raw k ltac:(lia) ltac:(lia)).
    replace (Z.to_nat (raw * (q * blocks w bw + k))) with (length data1 + Z.to_nat (raw * k))%nat by (unfold zlen in L1; lia).
    rewrite skipn_app. rewrite skipn_all2 by lia. cbn [app]. f_equal. lia. }
  pose proof (blocks_nonneg h2 bh Hbh ltac:(lia)) as B6.
  assert (blocks h1 bh = q) as Bq by (rewrite <- (Z.add_0_r h1), Eq, blocks_shift by lia; unfold blocks; rewrite Z.div_small; lia).
  destruct (HD (data1 ++ data2) w (h1 + h2) image HS) as (_ & _ & D3).
  destruct D3 as (image' & E & (_ & P & _)); [rewrite zlen_app, B; lia|exact Hl| |].
  { intros k Hk. rewrite B in Hk. destruct (Z.ltb_spec k (q * blocks w bw)) as [K|K].
    - rewrite G1 by lia. apply HG1. rewrite Bq. lia.
    - replace k with (q * blocks w bw + (k - q * blocks w bw)) by ring. rewrite G2 by lia. apply HG2. lia. }
  exists image'. split; [exact E|]. intros x y Hx Hy. rewrite (P x y Hx Hy).
  pose proof (blocks_above w bw x Hbw Hx) as Bx.
  destruct (Z.ltb_spec y h1) as [L|L].
  - rewrite (P1 x y Hx ltac:(lia)). f_equal. assert (0 <= y / bh < q) as By by (split; [apply Z.div_pos; lia|apply Z.div_lt_upper_bound; lia]).
    apply G1. apply below_product; assumption.
  - rewrite (P2 x (y - h1) Hx ltac:(lia)). set (y' := y - h1) in *.
    assert (y / bh = q + y' / bh /\ y mod bh = y' mod bh) as [-> ->].
    { replace y with (y' + q * bh) by (unfold y'; lia). rewrite Z.div_add, Z.mod_add by lia. split; [ring|reflexivity]. }
    f_equal. assert (0 <= y' / bh) by (apply Z.div_pos; unfold y'; lia).
    replace ((q + y' / bh) * blocks w bw + x / bw) with (q * blocks w bw + (y' / bh * blocks w bw + x / bw)) by ring.
    apply G2. pose proof (Z.mul_nonneg_nonneg (y' / bh) (blocks w bw) ltac:(lia) B5). lia.
Qed.
