(** * Proofs about the pictures PVRTC can store with one pair of colours. *)
From Verif Require Import Base BaseLemmas ModelColor ModelPvrtc SpecImage SpecBc SpecCut SpecEncode SpecPvrtc SpecContentPvr ProofMorton ProofCut ProofEncode ProofEncodeBc ProofPvrtc.

(** ** A block from its fields *)
Definition pvr_block (M A B : Z) : list Z := [M mod 256; M / 256 mod 256; M / 65536 mod 256; M / 16777216 mod 256; A mod 256; A / 256; B mod 256; B / 256].
Lemma pvr_block_bytes M A B : 0 <= A < 65536 -> 0 <= B < 65536 -> bytes (pvr_block M A B).
Proof. intros HA HB. unfold pvr_block. repeat (apply Forall_cons; [unfold is_byte; first [apply Z.mod_pos_bound; lia|split; [apply Z.div_pos; lia|apply Z.div_lt_upper_bound; lia]]|]). constructor. Qed.
Lemma pvr_block_mod M A B : 0 <= M < 2 ^ 32 -> pvr_mod (pvr_block M A B) = M.
Proof.
  intros H. unfold pvr_mod, pvr_block. change (znth (?a :: _) 0) with a. change (znth [_; ?a; _; _; _; _; _; _] 1) with a. change (znth [_; _; ?a; _; _; _; _; _] 2) with a. change (znth [_; _; _; ?a; _; _; _; _] 3) with a.
  change (2 ^ 8) with 256. change (2 ^ 16) with 65536. change (2 ^ 24) with 16777216. change (2 ^ 32) with 4294967296 in H. clear - H. Z.to_euclidean_division_equations; lia.
Qed.
Lemma pvr_block_a M A B : pvr_word_a (pvr_block M A B) = A.
Proof. unfold pvr_word_a, pvr_block. change (znth [_; _; _; _; ?a; _; _; _] 4) with a. change (znth [_; _; _; _; _; ?a; _; _] 5) with a. change (2 ^ 8) with 256. clear. Z.to_euclidean_division_equations; lia. Qed.
Lemma pvr_block_b M A B : pvr_word_b (pvr_block M A B) = B.
Proof. unfold pvr_word_b, pvr_block. change (znth [_; _; _; _; _; _; ?a; _] 6) with a. change (znth [_; _; _; _; _; _; _; ?a] 7) with a. change (2 ^ 8) with 256. clear. Z.to_euclidean_division_equations; lia. Qed.
Lemma pvr_block_mode M A B : pvr_mode (pvr_block M A B) = A mod 2.
Proof. unfold pvr_mode, pvr_block, bits_at. change (znth [_; _; _; _; ?a; _; _; _] 4) with a. rewrite Z.pow_0_r, Z.div_1_r. change (2 ^ 1) with 2. clear. Z.to_euclidean_division_equations; lia. Qed.

(** Words for the colours. *)
Ltac fields := unfold bits_at; change (2 ^ 15) with 32768; change (2 ^ 10) with 1024; change (2 ^ 5) with 32; change (2 ^ 1) with 2; change (2 ^ 0) with 1; change (2 ^ 4) with 16; change (2 ^ 8) with 256; change (2 ^ 12) with 4096; change (2 ^ 3) with 8.
Lemma word_of_a c md : colour_a c -> 0 <= md < 2 -> exists A, 0 <= A < 65536 /\ A mod 2 = md /\ forall b, pvr_word_a b = A -> forall ch, 0 <= ch < 4 -> pvr_a b ch = c ch.
Proof.
  intros HC Hm. destruct HC as [(R & G & (b & B & EB) & EA)|(r & g & b & a & R & G & B & A & ER & EG & EB & EA)].
  - exists (32768 + 1024 * c 0 + 32 * c 1 + 2 * b + md). split; [lia|]. split; [clear - Hm; Z.to_euclidean_division_equations; lia|].
    intros bl E ch Hch. unfold pvr_a. rewrite E. set (r := c 0) in *. set (g := c 1) in *.
    assert (bits_at (32768 + 1024 * r + 32 * g + 2 * b + md) 15 1 = 1) as -> by (fields; clear - R G B Hm; Z.to_euclidean_division_equations; lia).
    assert (bits_at (32768 + 1024 * r + 32 * g + 2 * b + md) 10 5 = r) as -> by (fields; clear - R G B Hm; Z.to_euclidean_division_equations; lia).
    assert (bits_at (32768 + 1024 * r + 32 * g + 2 * b + md) 5 5 = g) as -> by (fields; clear - R G B Hm; Z.to_euclidean_division_equations; lia).
    assert (bits_at (32768 + 1024 * r + 32 * g + 2 * b + md) 1 4 = b) as -> by (fields; clear - R G B Hm; Z.to_euclidean_division_equations; lia).
    assert (ch = 0 \/ ch = 1 \/ ch = 2 \/ ch = 3) as [-> | [-> | [-> | ->]]] by lia; cbn [Z.eqb Pos.eqb]; first [reflexivity|congruence].
  - exists (4096 * a + 256 * r + 16 * g + 2 * b + md). split; [lia|]. split; [clear - Hm; Z.to_euclidean_division_equations; lia|].
    intros bl E ch Hch. unfold pvr_a. rewrite E.
    assert (bits_at (4096 * a + 256 * r + 16 * g + 2 * b + md) 15 1 = 0) as -> by (fields; clear - R G B A Hm; Z.to_euclidean_division_equations; lia).
    assert (bits_at (4096 * a + 256 * r + 16 * g + 2 * b + md) 8 4 = r) as -> by (fields; clear - R G B A Hm; Z.to_euclidean_division_equations; lia).
    assert (bits_at (4096 * a + 256 * r + 16 * g + 2 * b + md) 4 4 = g) as -> by (fields; clear - R G B A Hm; Z.to_euclidean_division_equations; lia).
    assert (bits_at (4096 * a + 256 * r + 16 * g + 2 * b + md) 1 3 = b) as -> by (fields; clear - R G B A Hm; Z.to_euclidean_division_equations; lia).
    assert (bits_at (4096 * a + 256 * r + 16 * g + 2 * b + md) 12 3 = a) as -> by (fields; clear - R G B A Hm; Z.to_euclidean_division_equations; lia).
    assert (ch = 0 \/ ch = 1 \/ ch = 2 \/ ch = 3) as [-> | [-> | [-> | ->]]] by lia; cbn [Z.eqb Pos.eqb]; first [reflexivity|congruence].
Qed.
Lemma word_of_b c : colour_b c -> exists B, 0 <= B < 65536 /\ forall b, pvr_word_b b = B -> forall ch, 0 <= ch < 4 -> pvr_b b ch = c ch.
Proof.
  intros HC. destruct HC as [(R & G & B & EA)|(r & g & b & a & R & G & B & A & ER & EG & EB & EA)].
  - exists (32768 + 1024 * c 0 + 32 * c 1 + c 2). split; [lia|].
    intros bl E ch Hch. unfold pvr_b. rewrite E. set (r := c 0) in *. set (g := c 1) in *. set (b := c 2) in *.
    assert (bits_at (32768 + 1024 * r + 32 * g + b) 15 1 = 1) as -> by (fields; clear - R G B; Z.to_euclidean_division_equations; lia).
    assert (bits_at (32768 + 1024 * r + 32 * g + b) 10 5 = r) as -> by (fields; clear - R G B; Z.to_euclidean_division_equations; lia).
    assert (bits_at (32768 + 1024 * r + 32 * g + b) 5 5 = g) as -> by (fields; clear - R G B; Z.to_euclidean_division_equations; lia).
    assert (bits_at (32768 + 1024 * r + 32 * g + b) 0 5 = b) as -> by (fields; clear - R G B; Z.to_euclidean_division_equations; lia).
    assert (ch = 0 \/ ch = 1 \/ ch = 2 \/ ch = 3) as [-> | [-> | [-> | ->]]] by lia; cbn [Z.eqb Pos.eqb]; first [reflexivity|congruence].
  - exists (4096 * a + 256 * r + 16 * g + b). split; [lia|].
    intros bl E ch Hch. unfold pvr_b. rewrite E.
    assert (bits_at (4096 * a + 256 * r + 16 * g + b) 15 1 = 0) as -> by (fields; clear - R G B A; Z.to_euclidean_division_equations; lia).
    assert (bits_at (4096 * a + 256 * r + 16 * g + b) 8 4 = r) as -> by (fields; clear - R G B A; Z.to_euclidean_division_equations; lia).
    assert (bits_at (4096 * a + 256 * r + 16 * g + b) 4 4 = g) as -> by (fields; clear - R G B A; Z.to_euclidean_division_equations; lia).
    assert (bits_at (4096 * a + 256 * r + 16 * g + b) 0 4 = b) as -> by (fields; clear - R G B A; Z.to_euclidean_division_equations; lia).
    assert (bits_at (4096 * a + 256 * r + 16 * g + b) 12 3 = a) as -> by (fields; clear - R G B A; Z.to_euclidean_division_equations; lia).
    assert (ch = 0 \/ ch = 1 \/ ch = 2 \/ ch = 3) as [-> | [-> | [-> | ->]]] by lia; cbn [Z.eqb Pos.eqb]; first [reflexivity|congruence].
Qed.

(** ** Data from blocks *)
Lemma pvr_assembled p q (good : Z -> Z -> list Z -> Prop) : 0 <= p -> 0 <= q ->
  (forall bx by_, 0 <= bx < 2 ^ p -> 0 <= by_ < 2 ^ q -> exists b, bytes b /\ zlen b = 8 /\ good bx by_ b) ->
  exists data, bytes data /\ zlen data = 2 ^ p * 2 ^ q * 8 /\
    forall bx by_, 0 <= bx < 2 ^ p -> 0 <= by_ < 2 ^ q -> good bx by_ (pvr_blocks data p q bx by_).
Proof.
  intros Hp Hq H. assert (K : Z.of_nat (Z.to_nat (Z.min p q)) = Z.min p q) by lia.
  assert (0 < 2 ^ p) by (apply Z.pow_pos_nonneg; lia). assert (0 < 2 ^ q) by (apply Z.pow_pos_nonneg; lia).
  destruct (blocks_written 8 (fun k b => forall x y, 0 <= x < 2 ^ p -> 0 <= y < 2 ^ q -> morton (Z.to_nat (Z.min p q)) x y = k -> good x y b) (2 ^ p * 2 ^ q)) as (data & B & L & G); [lia|apply Z.mul_nonneg_nonneg; lia| |].
  - intros k Hk. destruct (morton_surj _ p q k K Hk) as (x & y & Hx & Hy & E). destruct (H x y Hx Hy) as (b & Bb & Lb & Gb).
    exists b. split; [exact Bb|]. split; [exact Lb|]. intros x' y' Hx' Hy' E'. rewrite <- E in E'.
    destruct (morton_inj _ p q x' y' x y K Hx' Hy' Hx Hy E') as [-> ->]. exact Gb.
  - exists data. split; [exact B|]. split; [exact L|]. intros bx by_ Hx Hy. unfold pvr_blocks.
    apply (G (morton (Z.to_nat (Z.min p q)) bx by_)); [apply morton_range; auto|exact Hx|exact Hy|reflexivity].
Qed.

(** ** The same colours everywhere *)
Lemma bilinear_same bw nbx nby col v x y : bw = 4 \/ bw = 8 -> 0 < nbx -> 0 < nby ->
  (forall i j, 0 <= i < nbx -> 0 <= j < nby -> col i j = v) -> bilinear bw nbx nby col x y = 4 * bw * v.
Proof. intros Hb Hx Hy H. unfold bilinear. cbv zeta. rewrite !H by (apply Z.mod_pos_bound; assumption). ring. Qed.
Lemma up_same bw nbx nby col c ch x y : bw = 4 \/ bw = 8 -> 0 < nbx -> 0 < nby ->
  (forall i j, 0 <= i < nbx -> 0 <= j < nby -> col i j ch = c ch) -> pvr_up bw nbx nby col ch x y = eight c ch.
Proof.
  intros Hb Hx Hy H. unfold pvr_up. cbv zeta. rewrite (bilinear_same bw nbx nby (fun i j => col i j ch) (c ch) x y Hb Hx Hy H). unfold eight.
  destruct Hb as [-> | ->]; cbn [Z.eqb Pos.eqb]; (destruct (Z.eqb_spec ch 3) as [->|_]; [set (v := c 3)|set (v := c ch)]); clear; Z.to_euclidean_division_equations; lia.
Qed.
Lemma channel_same bw nbx nby blk a b mv ch x y : bw = 4 \/ bw = 8 -> 0 < nbx -> 0 < nby -> 0 <= ch < 4 ->
  (forall i j, 0 <= i < nbx -> 0 <= j < nby -> forall ch, 0 <= ch < 4 -> pvr_a (blk i j) ch = a ch /\ pvr_b (blk i j) ch = b ch) ->
  pvr_channel bw nbx nby blk mv ch x y = mixed8 a b mv ch.
Proof.
  intros Hb Hx Hy Hc H. unfold pvr_channel, pvr_blend, mixed8.
  rewrite (up_same bw nbx nby (fun i j => pvr_a (blk i j)) a ch x y Hb Hx Hy) by (intros i j Hi Hj; apply (H i j Hi Hj ch Hc)).
  rewrite (up_same bw nbx nby (fun i j => pvr_b (blk i j)) b ch x y Hb Hx Hy) by (intros i j Hi Hj; apply (H i j Hi Hj ch Hc)). reflexivity.
Qed.

(** ** The choices of a block *)
Definition chosen (f : Z -> Z) (v : Z) : Z := if v =? f 0 then 0 else if v =? f 1 then 1 else if v =? f 2 then 2 else 3.
Lemma chosen_range f v : 0 <= chosen f v < 4.
Proof. unfold chosen. destruct (v =? f 0), (v =? f 1), (v =? f 2); lia. Qed.
Lemma chosen_right f v : (exists q, 0 <= q < 4 /\ v = f q) -> f (chosen f v) = v.
Proof.
  intros (q & Hq & E). unfold chosen. destruct (Z.eqb_spec v (f 0)) as [e|n0]; [auto|]. destruct (Z.eqb_spec v (f 1)) as [e|n1]; [auto|]. destruct (Z.eqb_spec v (f 2)) as [e|n2]; [auto|].
  assert (q = 0 \/ q = 1 \/ q = 2 \/ q = 3) as [-> | [-> | [-> | ->]]] by lia; congruence.
Qed.
Lemma digits_pack b n f : 0 < b -> 0 <= n -> (forall t, 0 <= t < n -> 0 <= f t < b) ->
  0 <= number b (tab n f) < b ^ n /\ forall t, 0 <= t < n -> number b (tab n f) / b ^ t mod b = f t.
Proof.
  intros Hb Hn H. assert (F : Forall (fun d => 0 <= d < b) (tab n f)).
  { apply Forall_forall. intros d Hd. unfold tab in Hd. apply in_map_iff in Hd. destruct Hd as (t & <- & Ht). apply H. apply in_zrange in Ht. lia. }
  assert (L : zlen (tab n f) = n) by (rewrite zlen_tab; lia). split.
  - pose proof (number_bound b (tab n f) Hb F) as N. rewrite L in N. exact N.
  - intros t Ht. rewrite number_digit by (try assumption; lia). apply znth_tab; lia.
Qed.

(** ** The decoders *)
Lemma pvr_stored bw pix dec a b (mixes : list Z -> Z -> Z -> Prop) w h pic : bw = 4 \/ bw = 8 -> pvr_decoder bw pix dec -> 0 < w -> 0 < h -> pow2 (blocks w bw) -> pow2 (blocks h 4) ->
  (forall bx by_, 0 <= bx < blocks w bw -> 0 <= by_ < blocks h 4 -> exists bl, bytes bl /\ zlen bl = 8 /\ (forall ch, 0 <= ch < 4 -> pvr_a bl ch = a ch /\ pvr_b bl ch = b ch) /\ mixes bl bx by_) ->
  (forall blk nbx nby x y, nbx = blocks w bw -> nby = blocks h 4 -> 0 < nbx -> 0 < nby -> 0 <= x < w -> 0 <= y < h ->
     (forall i j, 0 <= i < nbx -> 0 <= j < nby -> (forall ch, 0 <= ch < 4 -> pvr_a (blk i j) ch = a ch /\ pvr_b (blk i j) ch = b ch) /\ mixes (blk i j) i j) ->
     pix blk nbx nby x y = pic x y) ->
  has_pvr_data bw dec w h pic.
Proof.
  intros Hb D Hw Hh (p & Hp & Ep) (q & Hq & Eq) HB HP.
  destruct (pvr_assembled p q (fun bx by_ bl => (forall ch, 0 <= ch < 4 -> pvr_a bl ch = a ch /\ pvr_b bl ch = b ch) /\ mixes bl bx by_) Hp Hq) as (data & B & L & G).
  { rewrite <- Ep, <- Eq. exact HB. }
  exists data. split; [exact B|]. split; [rewrite Ep, Eq; exact L|]. intros image Hi Hl.
  assert (W : w * 1 <= w * h) by (apply Z.mul_le_mono_nonneg_l; lia). assert (H1 : 1 * h <= w * h) by (apply Z.mul_le_mono_nonneg_r; lia).
  assert (N : blocks w bw * blocks h 4 <= w * h).
  { apply Z.mul_le_mono_nonneg; unfold blocks; destruct Hb as [-> | ->]; clear - Hw Hh; Z.to_euclidean_division_equations; lia. }
  destruct (D data w h image p q) as (image' & R & _ & P & _); try assumption.
  - change (2 ^ 63) with 9223372036854775808 in Hl. unfold pvr_sane. change (2 ^ 63) with 9223372036854775808. change (2 ^ 64) with 18446744073709551616. split; [exact B|]. lia.
  - rewrite L, Ep, Eq. lia.
  - exists image'. split; [exact R|]. intros x y Hx Hy. rewrite P by assumption.
    apply HP; [symmetry; exact Ep|symmetry; exact Eq|apply Z.pow_pos_nonneg; lia|apply Z.pow_pos_nonneg; lia|exact Hx|exact Hy|exact G].
Qed.

Definition texel_4bpp (a b : Z -> Z) (bl : list Z) (t : Z) : Z :=
  rgba (mixed8 a b (mod4 bl t) 0) (mixed8 a b (mod4 bl t) 1) (mixed8 a b (mod4 bl t) 2) (if punch4 bl t then 0 else mixed8 a b (mod4 bl t) 3).
Lemma block_4bpp a b f : colour_a a -> colour_b b -> (exists punch, forall t, 0 <= t < 16 -> exists q, 0 <= q < 4 /\ f t = looks a b punch q) ->
  exists bl, bytes bl /\ zlen bl = 8 /\ (forall ch, 0 <= ch < 4 -> pvr_a bl ch = a ch /\ pvr_b bl ch = b ch) /\ forall t, 0 <= t < 16 -> texel_4bpp a b bl t = f t.
Proof.
  intros HA HB (punch & HF). destruct (word_of_a a (Z.b2z punch) HA) as (A & RA & MA & CA); [destruct punch; cbn; lia|]. destruct (word_of_b b HB) as (B & RB & CB).
  set (g := fun t => chosen (looks a b punch) (f t)). destruct (digits_pack 4 16 g) as (RM & DM); [lia|lia|intros; apply chosen_range|].
  set (M := number 4 (tab 16 g)) in *. change (4 ^ 16) with (2 ^ 32) in RM. exists (pvr_block M A B). split; [apply pvr_block_bytes; assumption|]. split; [reflexivity|]. split.
  - intros ch Hch. split; [apply CA; [apply pvr_block_a|exact Hch]|apply CB; [apply pvr_block_b|exact Hch]].
  - intros t Ht. rewrite <- (chosen_right (looks a b punch) (f t) (HF t Ht)). fold (g t). pose proof (chosen_range (looks a b punch) (f t)) as RG. fold (g t) in RG.
    unfold texel_4bpp, mod4, punch4. rewrite pvr_block_mode, MA.
    assert (mod4_index (pvr_block M A B) t = g t) as ->.
    { unfold mod4_index, bits_at. rewrite pvr_block_mod by exact RM. change (2 ^ 2) with 4. rewrite Z.pow_mul_r by lia. apply DM. exact Ht. }
    revert RG. generalize (g t). clear. intros q Hq. assert (q = 0 \/ q = 1 \/ q = 2 \/ q = 3) as [-> | [-> | [-> | ->]]] by lia; destruct punch; reflexivity.
Qed.
Lemma one_pair_4 m a b w h pic : (forall m, pvr_decoder 4 pvr4_pixel (decode_pvrtc_4bpp m)) -> colour_a a -> colour_b b -> 0 < w -> 0 < h -> pow2 (blocks w 4) -> pow2 (blocks h 4) ->
  one_pair_4bpp a b w h pic -> has_pvr_data 4 (decode_pvrtc_4bpp m) w h pic.
Proof.
  intros D HA HB Hw Hh Pw Ph HP.
  apply (pvr_stored 4 pvr4_pixel _ a b (fun bl bx by_ => forall x y, 0 <= x < w -> 0 <= y < h -> x / 4 = bx -> y / 4 = by_ -> texel_4bpp a b bl (y mod 4 * 4 + x mod 4) = pic x y)); auto.
  - intros bx by_ Hx Hy. pose proof (block_pos w 4 bx ltac:(lia) Hx) as Bx. pose proof (block_pos h 4 by_ ltac:(lia) Hy) as By.
    destruct (HP bx by_) as (punch & HQ); [lia|lia|exact Bx|exact By|].
    destruct (block_4bpp a b (fun t => if ((4 * bx + t mod 4 <? w) && (4 * by_ + t / 4 <? h))%bool then pic (4 * bx + t mod 4) (4 * by_ + t / 4) else looks a b punch 0) HA HB) as (bl & R1 & R2 & R3 & R4).
    { exists punch. intros t Ht. destruct ((4 * bx + t mod 4 <? w) && (4 * by_ + t / 4 <? h))%bool eqn:E; [|exists 0; split; [lia|reflexivity]].
      apply andb_prop in E. destruct E as [E1 E2]. apply Z.ltb_lt in E1, E2. assert (0 <= t mod 4 < 4 /\ 0 <= t / 4 < 4) as T by (clear - Ht; Z.to_euclidean_division_equations; lia). apply HQ; lia. }
    exists bl. split; [exact R1|]. split; [exact R2|]. split; [exact R3|]. intros x y Hx' Hy' Ex Ey.
    rewrite R4 by (clear; Z.to_euclidean_division_equations; lia).
    replace ((y mod 4 * 4 + x mod 4) mod 4) with (x mod 4) by (clear; Z.to_euclidean_division_equations; lia).
    replace ((y mod 4 * 4 + x mod 4) / 4) with (y mod 4) by (clear; Z.to_euclidean_division_equations; lia).
    rewrite <- Ex, <- Ey. rewrite <- !Z.div_mod by lia. rewrite (proj2 (Z.ltb_lt x w)), (proj2 (Z.ltb_lt y h)) by lia. reflexivity.
  - intros blk nbx nby x y -> -> Nx Ny Hx Hy HC. unfold pvr4_pixel. cbv zeta.
    assert (forall i j, 0 <= i < blocks w 4 -> 0 <= j < blocks h 4 -> forall ch, 0 <= ch < 4 -> pvr_a (blk i j) ch = a ch /\ pvr_b (blk i j) ch = b ch) as HC1 by (intros i j Hi Hj; apply (HC i j Hi Hj)).
    rewrite !(channel_same 4 _ _ blk a b) by (try assumption; auto; lia).
    refine (proj2 (HC (x / 4) (y / 4) _ _) x y Hx Hy eq_refl eq_refl); apply blocks_above; lia.
Qed.

Lemma block_2bpp a b f : colour_a a -> colour_b b -> (forall t, 0 <= t < 32 -> f t = mixture a b 0 \/ f t = mixture a b 8) ->
  exists bl, bytes bl /\ zlen bl = 8 /\ (forall ch, 0 <= ch < 4 -> pvr_a bl ch = a ch /\ pvr_b bl ch = b ch) /\ pvr_mode bl = 0 /\ forall t, 0 <= t < 32 -> mixture a b (stored2 bl t) = f t.
Proof.
  intros HA HB HF. destruct (word_of_a a 0 HA) as (A & RA & MA & CA); [lia|]. destruct (word_of_b b HB) as (B & RB & CB).
  set (g := fun t => if f t =? mixture a b 0 then 0 else 1). destruct (digits_pack 2 32 g) as (RM & DM); [lia|lia|intros; unfold g; destruct (_ =? _); lia|].
  set (M := number 2 (tab 32 g)) in *. exists (pvr_block M A B). split; [apply pvr_block_bytes; assumption|]. split; [reflexivity|]. split; [|split].
  - intros ch Hch. split; [apply CA; [apply pvr_block_a|exact Hch]|apply CB; [apply pvr_block_b|exact Hch]].
  - rewrite pvr_block_mode. exact MA.
  - intros t Ht. unfold stored2. cbv zeta. rewrite pvr_block_mode, MA, pvr_block_mod by exact RM. change (0 =? 1) with false. cbv iota.
    assert (bits_at M t 1 = g t) as -> by (unfold bits_at; change (2 ^ 1) with 2; apply DM; exact Ht).
    unfold g. destruct (Z.eqb_spec (f t) (mixture a b 0)) as [->|N]; [reflexivity|]. destruct (HF t Ht) as [E|E]; [contradiction|symmetry; exact E].
Qed.
Lemma one_pair_2 m a b w h pic : (forall m, pvr_decoder 8 pvr2_pixel (decode_pvrtc_2bpp m)) -> colour_a a -> colour_b b -> 0 < w -> 0 < h -> pow2 (blocks w 8) -> pow2 (blocks h 4) ->
  one_pair_2bpp a b w h pic -> has_pvr_data 8 (decode_pvrtc_2bpp m) w h pic.
Proof.
  intros D HA HB Hw Hh Pw Ph HP.
  apply (pvr_stored 8 pvr2_pixel _ a b (fun bl bx by_ => pvr_mode bl = 0 /\ forall x y, 0 <= x < w -> 0 <= y < h -> x / 8 = bx -> y / 4 = by_ -> mixture a b (stored2 bl (y mod 4 * 8 + x mod 8)) = pic x y)); auto.
  - intros bx by_ Hx Hy.
    destruct (block_2bpp a b (fun t => if ((8 * bx + t mod 8 <? w) && (4 * by_ + t / 8 <? h))%bool then pic (8 * bx + t mod 8) (4 * by_ + t / 8) else mixture a b 0) HA HB) as (bl & R1 & R2 & R3 & R5 & R4).
    { intros t Ht. destruct ((8 * bx + t mod 8 <? w) && (4 * by_ + t / 8 <? h))%bool eqn:E; [|left; reflexivity].
      apply andb_prop in E. destruct E as [E1 E2]. apply Z.ltb_lt in E1, E2. assert (0 <= t mod 8 < 8 /\ 0 <= t / 8 < 4) as T by (clear - Ht; Z.to_euclidean_division_equations; lia). apply HP; lia. }
    exists bl. split; [exact R1|]. split; [exact R2|]. split; [exact R3|]. split; [exact R5|]. intros x y Hx' Hy' Ex Ey.
    rewrite R4 by (clear; Z.to_euclidean_division_equations; lia).
    replace ((y mod 4 * 8 + x mod 8) mod 8) with (x mod 8) by (clear; Z.to_euclidean_division_equations; lia).
    replace ((y mod 4 * 8 + x mod 8) / 8) with (y mod 4) by (clear; Z.to_euclidean_division_equations; lia).
    rewrite <- Ex, <- Ey. rewrite <- !Z.div_mod by lia. rewrite (proj2 (Z.ltb_lt x w)), (proj2 (Z.ltb_lt y h)) by lia. reflexivity.
  - intros blk nbx nby x y -> -> Nx Ny Hx Hy HC. unfold pvr2_pixel. cbv zeta.
    assert (forall i j, 0 <= i < blocks w 8 -> 0 <= j < blocks h 4 -> forall ch, 0 <= ch < 4 -> pvr_a (blk i j) ch = a ch /\ pvr_b (blk i j) ch = b ch) as HC1 by (intros i j Hi Hj; apply (HC i j Hi Hj)).
    rewrite !(channel_same 8 _ _ blk a b) by (try assumption; auto; lia).
    assert (X : 0 <= x / 8 < blocks w 8) by (apply blocks_above; lia). assert (Y : 0 <= y / 4 < blocks h 4) by (apply blocks_above; lia).
    destruct (HC (x / 8) (y / 4) X Y) as (_ & MO & T). rewrite <- (T x y Hx Hy eq_refl eq_refl). unfold mod2. cbv zeta. rewrite MO. change (0 =? 1) with false. cbn [andb].
    unfold stored2_at. cbv zeta. rewrite (Z.mod_small x (8 * blocks w 8)), (Z.mod_small y (4 * blocks h 4)) by (clear - X Y Hx Hy; Z.to_euclidean_division_equations; lia). reflexivity.
Qed.

(** Conversely. *)
Lemma only_pair_4 m data w h image image' pic a b : (forall m, pvr_decoder 4 pvr4_pixel (decode_pvrtc_4bpp m)) -> pvr_sane 4 data w h image -> pow2 (blocks w 4) -> pow2 (blocks h 4) ->
  blocks w 4 * blocks h 4 * 8 <= zlen data -> w * h <= zlen image -> has_pair 4 data w h a b -> decode_pvrtc_4bpp m data w h image = Ok (Done, image') -> shows image' w h pic -> one_pair_4bpp a b w h pic.
Proof.
  intros D S (p & Hp & Ep) (q & Hq & Eq) L I HC R SH. destruct (D m data w h image p q) as (im & R' & _ & P & _); try assumption. rewrite R in R'. injection R' as <-.
  assert (Px : 0 < 2 ^ p) by (apply Z.pow_pos_nonneg; lia). assert (Py : 0 < 2 ^ q) by (apply Z.pow_pos_nonneg; lia).
  intros bx by_ Bx By Cx Cy. set (bl := pvr_blocks data p q bx by_). exists (pvr_mode bl =? 1). intros x y Hx Hy Gx Gy.
  exists (mod4_index bl (y mod 4 * 4 + x mod 4)). split; [unfold mod4_index, bits_at; change (2 ^ 2) with 4; apply Z.mod_pos_bound; lia|].
  rewrite <- (SH x y) by lia. rewrite P by lia. unfold pvr4_pixel. cbv zeta.
  rewrite !(channel_same 4 (2 ^ p) (2 ^ q) (pvr_blocks data p q) a b); auto; try lia.
  2-5: intros i j Hi Hj; unfold pvr_blocks; apply HC; rewrite Ep, Eq; apply morton_range; auto; lia.
  replace (x / 4) with bx by (apply Z.div_unique with (x - 4 * bx); lia). replace (y / 4) with by_ by (apply Z.div_unique with (y - 4 * by_); lia). fold bl.
  unfold mod4, punch4, looks. set (t := y mod 4 * 4 + x mod 4). assert (0 <= mod4_index bl t < 4) as Q by (unfold mod4_index, bits_at; change (2 ^ 2) with 4; apply Z.mod_pos_bound; lia).
  revert Q. generalize (mod4_index bl t) (pvr_mode bl =? 1). clear. intros q u Hq. assert (q = 0 \/ q = 1 \/ q = 2 \/ q = 3) as [-> | [-> | [-> | ->]]] by lia; destruct u; reflexivity.
Qed.
Lemma only_pair_2 m data w h image image' pic a b : (forall m, pvr_decoder 8 pvr2_pixel (decode_pvrtc_2bpp m)) -> pvr_sane 8 data w h image -> pow2 (blocks w 8) -> pow2 (blocks h 4) ->
  blocks w 8 * blocks h 4 * 8 <= zlen data -> w * h <= zlen image -> has_pair 8 data w h a b -> decode_pvrtc_2bpp m data w h image = Ok (Done, image') -> shows image' w h pic ->
  forall x y, 0 <= x < w -> 0 <= y < h -> exists e, 0 <= e <= 8 /\ pic x y = mixture a b e.
Proof.
  intros D S (p & Hp & Ep) (q & Hq & Eq) L I HC R SH x y Hx Hy. destruct (D m data w h image p q) as (im & R' & _ & P & _); try assumption. rewrite R in R'. injection R' as <-.
  assert (Px : 0 < 2 ^ p) by (apply Z.pow_pos_nonneg; lia). assert (Py : 0 < 2 ^ q) by (apply Z.pow_pos_nonneg; lia).
  exists (mod2 (pvr_blocks data p q) (2 ^ p) (2 ^ q) x y). split; [apply mod2_range|].
  rewrite <- (SH x y) by assumption. rewrite P by assumption. unfold pvr2_pixel. cbv zeta.
  rewrite !(channel_same 8 (2 ^ p) (2 ^ q) (pvr_blocks data p q) a b); auto; try lia.
  all: intros i j Hi Hj; unfold pvr_blocks; apply HC; rewrite Ep, Eq; apply morton_range; auto; lia.
Qed.
