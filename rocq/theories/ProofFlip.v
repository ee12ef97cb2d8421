(** * Proofs about pictures turned upside down. *)
From Verif Require Import Base BaseLemmas ModelColor SpecImage SpecBc SpecCut ProofCrnGrid ProofCut SpecFlip.

(** The texel opposite to [t]. *)
Definition opposite (t : Z) : Z := (3 - t / 4) * 4 + t mod 4.

Lemma flip_image raw tex flip dec : 0 < raw -> image_decoder 4 4 raw tex dec ->
  (forall b, bytes b -> zlen b = raw -> bytes (flip b) /\ zlen (flip b) = raw /\ forall t, 0 <= t < 16 -> tex (flip b) t = tex b (opposite t)) ->
  flips raw flip dec.
Proof.
  intros Hraw HD HF data w rows image image' other h S Hrows E HO H4.
  pose proof (decodes_all _ _ _ _ _ HD) as HG.
  destruct (decodes_done 4 4 raw (fun _ => True) tex dec data w h image image' HG S (fun _ _ => I) E) as (R & RI & _ & PP & _).
  destruct S as (B & Hw & Hh & HI & HZ & HA).
  assert (blocks h 4 = rows) as Bh. { unfold h. pose proof (blocks_shift 0 4 rows ltac:(lia)) as Q. rewrite Z.add_0_r in Q. rewrite Q. change (blocks 0 4) with 0. lia. }
  rewrite Bh in R, HZ. set (cols := blocks w 4) in *. pose proof (blocks_nonneg w 4 ltac:(lia) ltac:(lia)) as Nc. fold cols in Nc.
  assert (0 <= cols * rows) as Nn by (apply Z.mul_nonneg_nonneg; lia).
  assert (forall k, 0 <= k < cols * rows -> 0 <= k / cols < rows /\ 0 <= k mod cols < cols) as KK.
  { intros k Hk. assert (0 < cols) by (destruct (Z.eq_dec cols 0) as [e|e]; [rewrite e in Hk; lia|lia]). split; [|apply Z.mod_pos_bound; lia]. split; [apply Z.div_pos; lia|apply Z.div_lt_upper_bound; lia]. }
  set (src := fun k => (rows - 1 - k / cols) * cols + k mod cols).
  assert (forall k, 0 <= k < cols * rows -> 0 <= src k < rows * cols) as SR.
  { intros k Hk. destruct (KK k Hk). apply below_product; [lia|assumption]. }
  assert (forall k, 0 <= k < cols * rows -> bytes (block_bytes raw (src k) data) /\ zlen (block_bytes raw (src k) data) = raw) as SB.
  { intros k Hk. pose proof (SR k Hk) as K. split; [unfold block_bytes; apply bytes_firstn, bytes_skipn, B|]. unfold block_bytes. rewrite zlen_firstn, zlen_skipn.
    assert (0 <= raw * src k) by (apply Z.mul_nonneg_nonneg; lia). pose proof (Z.mul_le_mono_nonneg_r (src k + 1) (rows * cols) raw ltac:(lia) ltac:(lia)). rewrite !Z2Nat.id by lia. lia. }
  assert (forall k, 0 <= k < cols * rows -> zlen (flip (block_bytes raw (src k) data)) = raw) as FL by (intros k Hk; destruct (SB k Hk) as [b1 b2]; exact (proj1 (proj2 (HF _ b1 b2)))).
  assert (zlen (flip_data raw flip cols rows data) = cols * rows * raw) as L.
  { unfold flip_data. rewrite (zlen_flat_map raw); [ring|exact Nn|exact FL]. }
  assert (forall k, 0 <= k < cols * rows -> block_bytes raw k (flip_data raw flip cols rows data) = flip (block_bytes raw (src k) data)) as BB.
  { intros k Hk. assert (0 <= raw * k) by (apply Z.mul_nonneg_nonneg; lia). pose proof (Z.mul_le_mono_nonneg_r (k + 1) (cols * rows) raw ltac:(lia) ltac:(lia)).
    unfold block_bytes at 1. apply znth_ext.
    - rewrite zlen_firstn, zlen_skipn, L, FL, !Z2Nat.id by lia. lia.
    - intros i Hi. rewrite zlen_firstn, zlen_skipn, L, !Z2Nat.id in Hi by lia. rewrite znth_firstn, znth_skipn, !Z2Nat.id by (rewrite ?Z2Nat.id; lia).
      unfold flip_data. rewrite (znth_flat_map raw); [|exact Nn|exact Hraw|exact FL|lia].
      replace (raw * k + i) with (k * raw + i) by ring. rewrite Z.div_add_l, (Z.div_small i), Z.add_0_r by lia. rewrite (Z.add_comm (k * raw)), Z.mod_add, (Z.mod_small i) by lia. reflexivity. }
  destruct (HG (flip_data raw flip cols rows data) w h other) as (_ & _ & D3).
  { assert (bytes (flip_data raw flip cols rows data)) as BF.
    { unfold flip_data. apply Forall_forall. intros v Hv. apply in_flat_map in Hv. destruct Hv as (k & Hk & Hv). apply in_zrange in Hk.
      destruct (SB k Hk) as [b1 b2]. exact (proj1 (Forall_forall _ _) (proj1 (HF _ b1 b2)) v Hv). }
    unfold sized. rewrite Bh. fold cols. repeat split; try assumption; lia. }
  destruct D3 as (other' & E' & _ & PO & _); [rewrite Bh; fold cols; lia|exact HO|intros k Hk; exact I|].
  exists other'. split; [exact E'|]. intros x y Hx Hy. rewrite PO by assumption. fold cols.
  pose proof (blocks_above w 4 x ltac:(lia) Hx) as X1. fold cols in X1. pose proof (blocks_above h 4 y ltac:(lia) Hy) as Y1. rewrite Bh in Y1.
  pose proof (below_product (y / 4) (x / 4) rows cols Y1 X1) as K.
  rewrite BB by lia. unfold src. rewrite Z.div_add_l, (Z.div_small (x / 4) cols X1), Z.add_0_r by lia. rewrite (Z.add_comm (y / 4 * cols)), Z.mod_add, (Z.mod_small (x / 4) cols X1) by lia.
  assert (0 <= y / 4 * cols + x / 4 < cols * rows) as K' by lia. destruct (SB _ K') as [b1 b2]. unfold src in b1, b2.
  rewrite Z.div_add_l, (Z.div_small (x / 4) cols X1), Z.add_0_r in b1, b2 by lia. rewrite (Z.add_comm (y / 4 * cols)), Z.mod_add, (Z.mod_small (x / 4) cols X1) in b1, b2 by lia.
  rewrite (proj2 (proj2 (HF _ b1 b2))) by (clear; Z.to_euclidean_division_equations; lia).
  rewrite PP by (unfold h in *; lia). fold cols. unfold h.
  replace ((4 * rows - 1 - y) / 4) with (rows - 1 - y / 4) by (clear; Z.to_euclidean_division_equations; lia). f_equal. unfold opposite. clear. Z.to_euclidean_division_equations; lia.
Qed.

Lemma sixteen (P : Z -> Prop) : P 0 -> P 1 -> P 2 -> P 3 -> P 4 -> P 5 -> P 6 -> P 7 -> P 8 -> P 9 -> P 10 -> P 11 -> P 12 -> P 13 -> P 14 -> P 15 -> forall t, 0 <= t < 16 -> P t.
Proof.
  intros P0 P1 P2 P3 P4 P5 P6 P7 P8 P9 P10 P11 P12 P13 P14 P15 t Ht. apply in_zrange in Ht. change (zrange 0 16) with [0; 1; 2; 3; 4; 5; 6; 7; 8; 9; 10; 11; 12; 13; 14; 15] in Ht.
  repeat (destruct Ht as [<-|Ht]; [assumption|]). destruct Ht.
Qed.
Lemma opposite_range t : 0 <= t < 16 -> 0 <= opposite t < 16.
Proof. intros. unfold opposite. Z.to_euclidean_division_equations; lia. Qed.

(** ** Two-bit indices *)
Lemma flip_colour_ok b : bytes b -> bytes (flip_colour b) /\ zlen (flip_colour b) = 8.
Proof. intros H. split; [|reflexivity]. apply Forall_forall. intros v Hv. apply in_map_iff in Hv. destruct Hv as (i & <- & _). exact (bytes_znth b i H). Qed.
Lemma flip_colour_index b t : 0 <= t < 16 -> index2 (flip_colour b) 4 t = index2 b 4 (opposite t).
Proof. revert t. apply sixteen; reflexivity. Qed.
Lemma flip_colour_le b : le16 (flip_colour b) 0 = le16 b 0 /\ le16 (flip_colour b) 2 = le16 b 2.
Proof. split; reflexivity. Qed.

(** ** Four-bit alpha *)
Lemma flip_alpha_ok b : bytes b -> bytes (flip_alpha b) /\ zlen (flip_alpha b) = 8.
Proof. intros H. split; [|reflexivity]. apply Forall_forall. intros v Hv. apply in_map_iff in Hv. destruct Hv as (i & <- & _). exact (bytes_znth b i H). Qed.
Lemma flip_alpha_value b t : 0 <= t < 16 -> bc2_alpha (flip_alpha b) t = bc2_alpha b (opposite t).
Proof. revert t. apply sixteen; reflexivity. Qed.

(** ** Three-bit indices *)
Lemma three_range b o : bytes b -> 0 <= three_bytes b o < 16777216.
Proof. intros H. unfold three_bytes. pose proof (bytes_znth b o H). pose proof (bytes_znth b (o + 1) H). pose proof (bytes_znth b (o + 2) H). lia. Qed.
Lemma exchange_range v : 0 <= v < 16777216 -> 0 <= exchange12 v < 16777216.
Proof. intros. unfold exchange12. Z.to_euclidean_division_equations; lia. Qed.
Lemma flip_ramp_ok b : bytes b -> bytes (flip_ramp b) /\ zlen (flip_ramp b) = 8.
Proof.
  intros H. split; [|reflexivity]. pose proof (exchange_range _ (three_range b 5 H)) as P. pose proof (exchange_range _ (three_range b 2 H)) as Q.
  unfold flip_ramp. cbn zeta. set (p := exchange12 _) in *. set (q := exchange12 _) in Q |- *.
  repeat (apply Forall_cons; [first [exact (bytes_znth b _ H)|apply Z.mod_pos_bound; lia|unfold is_byte; Z.to_euclidean_division_equations; lia]|]). constructor.
Qed.
Lemma three_again v : 0 <= v -> v mod 256 + 256 * (v / 256 mod 256) + 65536 * (v / 65536) = v.
Proof. intros. Z.to_euclidean_division_equations; lia. Qed.
(** The 48-bit number of the indices, from its rows. *)
Definition index_number (b : list Z) : Z := three_bytes b 2 + 16777216 * three_bytes b 5.
Lemma index3_number b t : index3 b 0 t = index_number b / 8 ^ t mod 8.
Proof.
  unfold index3, index_number, three_bytes. change (0 + 2) with 2. change (0 + 3) with 3. change (0 + 4) with 4. change (0 + 5) with 5. change (0 + 6) with 6. change (0 + 7) with 7.
  change (2 + 1) with 3. change (2 + 2) with 4. change (5 + 1) with 6. change (5 + 2) with 7. f_equal. f_equal. ring.
Qed.
Lemma row_digit x0 x1 x2 x3 r c : 0 <= x0 < 4096 -> 0 <= x1 < 4096 -> 0 <= x2 < 4096 -> 0 <= x3 < 4096 -> 0 <= r < 4 -> 0 <= c < 4 ->
  (x0 + 4096 * x1 + 16777216 * (x2 + 4096 * x3)) / 8 ^ (4 * r + c) mod 8 = (if r =? 0 then x0 else if r =? 1 then x1 else if r =? 2 then x2 else x3) / 8 ^ c mod 8.
Proof.
  intros H0 H1 H2 H3 Hr Hc. set (N := x0 + 4096 * x1 + 16777216 * (x2 + 4096 * x3)).
  assert (exists hi, N / 8 ^ (4 * r) = (if r =? 0 then x0 else if r =? 1 then x1 else if r =? 2 then x2 else x3) + 4096 * hi) as (hi & E).
  { assert (r = 0 \/ r = 1 \/ r = 2 \/ r = 3) as [->|[->|[->| ->]]] by lia; cbn [Z.eqb Pos.eqb].
    - exists (x1 + 4096 * (x2 + 4096 * x3)). change (8 ^ (4 * 0)) with 1. rewrite Z.div_1_r. unfold N. lia.
    - exists (x2 + 4096 * x3). change (8 ^ (4 * 1)) with 4096. unfold N. replace (x0 + 4096 * x1 + 16777216 * (x2 + 4096 * x3)) with (x0 + (x1 + 4096 * (x2 + 4096 * x3)) * 4096) by ring. rewrite Z.div_add, Z.div_small by lia. lia.
    - exists x3. change (8 ^ (4 * 2)) with 16777216. unfold N. replace (x0 + 4096 * x1 + 16777216 * (x2 + 4096 * x3)) with (x0 + 4096 * x1 + (x2 + 4096 * x3) * 16777216) by ring. rewrite Z.div_add, Z.div_small by lia. lia.
    - exists 0. change (8 ^ (4 * 3)) with 68719476736. unfold N. replace (x0 + 4096 * x1 + 16777216 * (x2 + 4096 * x3)) with (x0 + 4096 * x1 + 16777216 * x2 + x3 * 68719476736) by ring. rewrite Z.div_add, Z.div_small by lia. lia. }
  rewrite Z.pow_add_r by lia. rewrite <- Z.div_div by (try (apply Z.pow_pos_nonneg; lia); apply Z.pow_nonzero; lia). rewrite E.
  set (x := if r =? 0 then x0 else if r =? 1 then x1 else if r =? 2 then x2 else x3).
  assert (c = 0 \/ c = 1 \/ c = 2 \/ c = 3) as [->|[->|[->| ->]]] by lia.
  - change (8 ^ 0) with 1. rewrite !Z.div_1_r. replace (x + 4096 * hi) with (x + (512 * hi) * 8) by ring. apply Z.mod_add. lia.
  - change (8 ^ 1) with 8. replace (x + 4096 * hi) with (x + (64 * hi * 8) * 8) by ring. rewrite Z.div_add by lia. apply Z.mod_add. lia.
  - change (8 ^ 2) with 64. replace (x + 4096 * hi) with (x + (8 * hi * 8) * 64) by ring. rewrite Z.div_add by lia. apply Z.mod_add. lia.
  - change (8 ^ 3) with 512. replace (x + 4096 * hi) with (x + (hi * 8) * 512) by ring. rewrite Z.div_add by lia. apply Z.mod_add. lia.
Qed.
Lemma flip_ramp_number b : bytes b -> index_number (flip_ramp b) = exchange12 (three_bytes b 5) + 16777216 * exchange12 (three_bytes b 2).
Proof.
  intros H. pose proof (exchange_range _ (three_range b 5 H)) as P. pose proof (exchange_range _ (three_range b 2 H)) as Q. unfold index_number, flip_ramp. cbn zeta.
  set (p := exchange12 (three_bytes b 5)) in *. set (q := exchange12 (three_bytes b 2)) in *. clearbody p q.
  change ((p mod 256 + 256 * (p / 256 mod 256) + 65536 * (p / 65536)) + 16777216 * (q mod 256 + 256 * (q / 256 mod 256) + 65536 * (q / 65536)) = p + 16777216 * q).
  rewrite !three_again by lia. reflexivity.
Qed.
Lemma halves12 v : 0 <= v < 16777216 -> exists x y, 0 <= x < 4096 /\ 0 <= y < 4096 /\ v = x + 4096 * y /\ exchange12 v = y + 4096 * x.
Proof. intros H. exists (v mod 4096), (v / 4096). unfold exchange12. Z.to_euclidean_division_equations; lia. Qed.
Lemma flip_ramp_index b t : bytes b -> 0 <= t < 16 -> index3 (flip_ramp b) 0 t = index3 b 0 (opposite t).
Proof.
  intros H Ht. rewrite !index3_number, flip_ramp_number by exact H. unfold index_number.
  destruct (halves12 _ (three_range b 2 H)) as (x0 & x1 & X0 & X1 & E2 & F2). destruct (halves12 _ (three_range b 5 H)) as (x2 & x3 & X2 & X3 & E5 & F5). rewrite F2, F5, E2, E5.
  assert (exists r c, 0 <= r < 4 /\ 0 <= c < 4 /\ t = 4 * r + c /\ opposite t = 4 * (3 - r) + c) as (r & c & Hr & Hc & -> & ->).
  { exists (t / 4), (t mod 4). unfold opposite. clear - Ht. Z.to_euclidean_division_equations; lia. }
  rewrite !row_digit by lia. assert (r = 0 \/ r = 1 \/ r = 2 \/ r = 3) as [->|[->|[->| ->]]] by lia; reflexivity.
Qed.
Lemma flip_ramp_value b t : bytes b -> 0 <= t < 16 -> interp8 (flip_ramp b) 0 t = interp8 b 0 (opposite t).
Proof. intros H Ht. unfold interp8. rewrite flip_ramp_index by assumption. reflexivity. Qed.

(** ** Blocks of one half and of two halves *)
Lemma bytes_split b : bytes b -> zlen b = 16 -> exists c d, b = c ++ d /\ bytes c /\ bytes d /\ zlen c = 8 /\ zlen d = 8 /\ firstn 8 b = c /\ skipn 8 b = d.
Proof.
  intros H L. exists (firstn 8 b), (skipn 8 b). split; [symmetry; apply firstn_skipn|]. split; [apply bytes_firstn, H|]. split; [apply bytes_skipn, H|].
  rewrite zlen_firstn, zlen_skipn, L. repeat split; reflexivity.
Qed.
Lemma znth_left c d i : zlen c = 8 -> 0 <= i < 8 -> znth (c ++ d) i = znth c i.
Proof. intros L Hi. apply znth_app1. lia. Qed.
Lemma znth_right c d i : zlen c = 8 -> 0 <= i -> znth (c ++ d) (8 + i) = znth d i.
Proof. intros L Hi. rewrite znth_app2 by lia. f_equal. lia. Qed.
Lemma le16_right c d i : zlen c = 8 -> 0 <= i -> le16 (c ++ d) (8 + i) = le16 d i.
Proof. intros L Hi. unfold le16. rewrite <- Z.add_assoc, !znth_right by lia. reflexivity. Qed.
Lemma index2_right c d t : zlen c = 8 -> 0 <= t -> index2 (c ++ d) 12 t = index2 d 4 t.
Proof. intros L Ht. unfold index2. replace (12 + t / 4) with (8 + (4 + t / 4)) by ring. rewrite znth_right; [reflexivity|exact L|]. Z.to_euclidean_division_equations; lia. Qed.
Lemma interp8_left c d t : zlen c = 8 -> interp8 (c ++ d) 0 t = interp8 c 0 t.
Proof. intros L. unfold interp8, index3. cbn [Z.add Pos.add Pos.succ]. rewrite !znth_left by (assumption || lia). reflexivity. Qed.
Lemma interp8_right c d t : zlen c = 8 -> interp8 (c ++ d) 8 t = interp8 d 0 t.
Proof.
  intros L. unfold interp8, index3. pose proof (znth_right c d) as R. pose proof (R 0 L ltac:(lia)) as R0. rewrite Z.add_0_r in R0. rewrite R0, !R by (assumption || lia). reflexivity.
Qed.
Lemma bc2_alpha_left c d t : zlen c = 8 -> 0 <= t < 16 -> bc2_alpha (c ++ d) t = bc2_alpha c t.
Proof. intros L Ht. unfold bc2_alpha. rewrite znth_left; [reflexivity|exact L|]. Z.to_euclidean_division_equations; lia. Qed.
Lemma bc1_right c d t : zlen c = 8 -> 0 <= t -> bc1_r (c ++ d) 8 t = bc1_r d 0 t /\ bc1_g (c ++ d) 8 t = bc1_g d 0 t /\ bc1_b (c ++ d) 8 t = bc1_b d 0 t.
Proof.
  intros L Ht. unfold bc1_r, bc1_g, bc1_b, bc1_four. change (8 + 4) with 12. rewrite index2_right by assumption.
  pose proof (le16_right c d 0 L ltac:(lia)) as R0. rewrite Z.add_0_r in R0. rewrite R0, (le16_right c d 2 L ltac:(lia)). auto.
Qed.
Lemma atc_right dark c d t a : zlen c = 8 -> 0 <= t -> atc_rgb dark (c ++ d) 8 t a = atc_rgb dark d 0 t a.
Proof.
  intros L Ht. unfold atc_rgb, atc_mode. change (8 + 4) with 12. rewrite index2_right by assumption.
  pose proof (le16_right c d 0 L ltac:(lia)) as R0. rewrite Z.add_0_r in R0. rewrite R0, (le16_right c d 2 L ltac:(lia)). reflexivity.
Qed.
Lemma flip_bc1_part b t : 0 <= t < 16 -> bc1_r (flip_colour b) 0 t = bc1_r b 0 (opposite t) /\ bc1_g (flip_colour b) 0 t = bc1_g b 0 (opposite t) /\ bc1_b (flip_colour b) 0 t = bc1_b b 0 (opposite t).
Proof. intros Ht. unfold bc1_r, bc1_g, bc1_b. change (0 + 4) with 4. rewrite flip_colour_index by exact Ht. auto. Qed.
Lemma flip_atc_part dark b t a : 0 <= t < 16 -> atc_rgb dark (flip_colour b) 0 t a = atc_rgb dark b 0 (opposite t) a.
Proof. intros Ht. unfold atc_rgb. change (0 + 4) with 4. rewrite flip_colour_index by exact Ht. reflexivity. Qed.

Definition flips_block (raw : Z) (tex : list Z -> Z -> Z) (flip : list Z -> list Z) : Prop :=
  forall b, bytes b -> zlen b = raw -> bytes (flip b) /\ zlen (flip b) = raw /\ forall t, 0 <= t < 16 -> tex (flip b) t = tex b (opposite t).
Lemma flip_bc1 : flips_block 8 bc1_texel flip_colour.
Proof. intros b H L. destruct (flip_colour_ok b H) as [F1 F2]. split; [exact F1|]. split; [exact F2|]. intros t Ht. unfold bc1_texel. destruct (flip_bc1_part b t Ht) as (-> & -> & ->). reflexivity. Qed.
Lemma flip_bc1a : flips_block 8 bc1a_texel flip_colour.
Proof.
  intros b H L. destruct (flip_colour_ok b H) as [F1 F2]. split; [exact F1|]. split; [exact F2|]. intros t Ht. unfold bc1a_texel. destruct (flip_bc1_part b t Ht) as (-> & -> & ->).
  rewrite flip_colour_index by exact Ht. reflexivity.
Qed.
Lemma flip_atc dark : flips_block 8 (atc_rgb4_texel dark) flip_colour.
Proof. intros b H L. destruct (flip_colour_ok b H) as [F1 F2]. split; [exact F1|]. split; [exact F2|]. intros t Ht. apply flip_atc_part, Ht. Qed.
Lemma flip_bc4 : flips_block 8 bc4_texel flip_ramp.
Proof. intros b H L. destruct (flip_ramp_ok b H) as [F1 F2]. split; [exact F1|]. split; [exact F2|]. intros t Ht. unfold bc4_texel. rewrite flip_ramp_value by assumption. reflexivity. Qed.

Lemma flip_halves_block f g tex : (forall c, bytes c -> bytes (f c) /\ zlen (f c) = 8) -> (forall c, bytes c -> bytes (g c) /\ zlen (g c) = 8) ->
  (forall c d t, bytes c -> bytes d -> zlen c = 8 -> zlen d = 8 -> 0 <= t < 16 -> tex (f c ++ g d) t = tex (c ++ d) (opposite t)) -> flips_block 16 tex (flip_halves f g).
Proof.
  intros F G T b H L. destruct (bytes_split b H L) as (c & d & E & Bc & Bd & Lc & Ld & E1 & E2). unfold flip_halves. rewrite E1, E2.
  destruct (F c Bc) as [F1 F2]. destruct (G d Bd) as [G1 G2]. split; [apply Forall_app; split; assumption|]. split; [rewrite zlen_app; lia|].
  intros t Ht. rewrite E. apply T; assumption.
Qed.
Lemma flip_bc2 : flips_block 16 bc2_texel (flip_halves flip_alpha flip_colour).
Proof.
  apply flip_halves_block; [apply flip_alpha_ok|apply flip_colour_ok|]. intros c d t Bc Bd Lc Ld Ht. pose proof (opposite_range t Ht) as Ho. unfold bc2_texel.
  pose proof (proj2 (flip_alpha_ok c Bc)) as Lf. destruct (bc1_right _ (flip_colour d) t Lf ltac:(lia)) as (-> & -> & ->). destruct (bc1_right c d (opposite t) Lc ltac:(lia)) as (-> & -> & ->).
  destruct (flip_bc1_part d t Ht) as (-> & -> & ->). rewrite !bc2_alpha_left by assumption. rewrite flip_alpha_value by exact Ht. reflexivity.
Qed.
Lemma flip_bc3 : flips_block 16 bc3_texel (flip_halves flip_ramp flip_colour).
Proof.
  apply flip_halves_block; [apply flip_ramp_ok|apply flip_colour_ok|]. intros c d t Bc Bd Lc Ld Ht. pose proof (opposite_range t Ht) as Ho. unfold bc3_texel.
  pose proof (proj2 (flip_ramp_ok c Bc)) as Lf. destruct (bc1_right _ (flip_colour d) t Lf ltac:(lia)) as (-> & -> & ->). destruct (bc1_right c d (opposite t) Lc ltac:(lia)) as (-> & -> & ->).
  destruct (flip_bc1_part d t Ht) as (-> & -> & ->). rewrite !interp8_left by assumption. rewrite flip_ramp_value by assumption. reflexivity.
Qed.
Lemma flip_atca dark : flips_block 16 (atc_rgba8_texel dark) (flip_halves flip_ramp flip_colour).
Proof.
  apply flip_halves_block; [apply flip_ramp_ok|apply flip_colour_ok|]. intros c d t Bc Bd Lc Ld Ht. pose proof (opposite_range t Ht) as Ho. unfold atc_rgba8_texel.
  pose proof (proj2 (flip_ramp_ok c Bc)) as Lf. rewrite !atc_right, !interp8_left by (assumption || lia). rewrite flip_atc_part, flip_ramp_value by assumption. reflexivity.
Qed.
Lemma flip_bc5 : flips_block 16 bc5_texel (flip_halves flip_ramp flip_ramp).
Proof.
  apply flip_halves_block; [apply flip_ramp_ok|apply flip_ramp_ok|]. intros c d t Bc Bd Lc Ld Ht. unfold bc5_texel.
  pose proof (proj2 (flip_ramp_ok c Bc)) as Lf. rewrite !interp8_left, !interp8_right by assumption. rewrite !flip_ramp_value by assumption. reflexivity.
Qed.
