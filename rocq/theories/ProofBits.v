(** * Proofs about the bit reader *)
From Verif Require Import Base BaseLemmas BitLemmas FieldLemmas ProofDecoder ModelBits SpecBits.

Lemma bits_range data p n : 0 <= n -> 0 <= bits data p n < 2 ^ n.
Proof. intros. apply Z.mod_pos_bound, Z.pow_pos_nonneg; lia. Qed.

Lemma bits_zero data p : bits data p 0 = 0.
Proof. unfold bits. change (2 ^ 0) with 1. apply Z.mod_1_r. Qed.

(** Bit [i] of the field is bit [p+i] of the string. *)
Lemma bits_testbit data p n i : bytes data -> 0 <= p -> 0 <= i < n ->
  Z.testbit (bits data p n) i = Z.testbit (znth data ((p + i) / 8)) ((p + i) mod 8).
Proof.
  intros Hb Hp Hi. unfold bits. rewrite Z.mod_pow2_bits_low by lia.
  rewrite <- Z.shiftr_div_pow2 by lia. rewrite Z.shiftr_spec by lia.
  assert (0 <= p + i) as Hq by lia. replace (i + p) with (p + i) by lia.
  revert Hq. generalize (p + i). clear p i n Hp Hi. intros q Hq.
  pose proof (le_field data (q / 8) (q mod 8) 1 Hb) as E.
  replace (8 * (q / 8) + q mod 8) with q in E by (pose proof (Z.div_mod q 8); lia).
  pose proof (Z.mod_pos_bound q 8 ltac:(lia)). pose proof (Z.div_pos q 8 ltac:(lia)).
  specialize (E ltac:(lia) ltac:(lia) ltac:(lia) ltac:(lia)).
  rewrite !Z.testbit_odd, !Z.shiftr_div_pow2 by lia.
  change (2 ^ 1) with 2 in E. rewrite !Zmod_odd in E.
  destruct (Z.odd _), (Z.odd _); auto; discriminate.
Qed.

Lemma bits_concat data p a b : 0 <= p -> 0 <= a -> 0 <= b ->
  bits data p (a + b) = bits data p a + 2 ^ a * bits data (p + a) b.
Proof.
  intros. unfold bits. rewrite div_pow_split by lia. generalize (le_bytes data / 2 ^ p). intros x.
  rewrite Z.pow_add_r by lia. rewrite Z.rem_mul_r; auto.
  - apply Z.pow_nonzero; lia.
  - apply Z.pow_pos_nonneg; lia.
Qed.

Lemma le_bytes_app l k : le_bytes (l ++ k) = le_bytes l + 2 ^ (8 * zlen l) * le_bytes k.
Proof.
  induction l as [|x l IH]; cbn [app le_bytes].
  - change (2 ^ (8 * zlen (@nil Z))) with 1. lia.
  - rewrite IH, zlen_cons. rewrite (Z.mul_add_distr_l 8), Z.pow_add_r by (pose proof (zlen_nonneg l); lia).
    change (2 ^ (8 * 1)) with 256. lia.
Qed.

Lemma le_bytes_zeros n : le_bytes (repeat 0 n) = 0.
Proof. induction n; cbn [repeat le_bytes]; lia. Qed.

Lemma div_ceil8 x : 0 <= x -> div_ceil x 8 = (x + 7) / 8.
Proof. intros. rewrite div_ceil_eq by lia. f_equal; lia. Qed.

(** What [getbits_raw] loads when it fits. *)
Lemma getbits_raw_ok m data p n : bytes data -> 0 <= p -> 0 <= n -> p + n < 2 ^ 64 ->
  p mod 8 + n <= 32 -> p + n <= 8 * zlen data ->
  exists raw, getbits_raw m data p n [0; 0; 0; 0] = Ok raw /\
    0 <= le_bytes raw < 2 ^ 32 /\ le_bytes raw / 2 ^ (p mod 8) mod 2 ^ n = bits data p n.
Proof.
  intros Hb Hp Hn Hov H32 Hl. unfold getbits_raw.
  rewrite ua_ok by lia. cbn [bind]. rewrite div_ceil8 by lia.
  assert (p = 8 * (p / 8) + p mod 8 /\ 0 <= p mod 8 < 8) as (Ep & Bp) by (split; dlia).
  set (bo := p / 8) in *. set (be := (p + n + 7) / 8).
  assert (8 * be - 7 <= p + n <= 8 * be) as Hbe by (unfold be; dlia). clearbody be.
  assert (0 <= bo) as Hbo by (unfold bo; apply Z.div_pos; lia). clearbody bo.
  set (s := p mod 8) in *. clearbody s.
  assert (0 <= be - bo <= 4) as Hk by lia.
  rewrite ua_ok by lia. cbn [bind].
  rewrite slice_ok by (cbn; lia). cbn [bind].
  rewrite slice_ok by lia. cbn [bind].
  set (src := firstn _ _).
  assert (zlen src = be - bo) as Ls.
  { unfold src. rewrite zlen_firstn, zlen_skipn. lia. }
  rewrite copy_into_ok by (rewrite ?Ls; cbn; lia).
  change (firstn (Z.to_nat 0) [0; 0; 0; 0]) with (@nil Z). cbn [app].
  eexists. split; [reflexivity|].
  assert (skipn (Z.to_nat 0 + length src) [0; 0; 0; 0] = repeat 0 (4 - length src)) as ->.
  { assert (length src <= 4)%nat as Hl4 by (unfold zlen in *; lia).
    destruct (length src) as [|[|[|[|[|]]]]]; auto; lia. }
  rewrite le_bytes_app, le_bytes_zeros, Z.mul_0_r, Z.add_0_r.
  assert (bytes src) as Bs by (apply bytes_firstn, bytes_skipn; auto).
  pose proof (le_bytes_bound src Bs) as Bd. rewrite Ls in Bd.
  assert (2 ^ (8 * (be - bo)) <= 2 ^ 32) by (apply Z.pow_le_mono_r; lia).
  split; [lia|].
  unfold bits. rewrite Ep. rewrite div_pow_split by lia.
  rewrite le_bytes_skip by auto.
  set (d := skipn (Z.to_nat bo) data) in *.
  assert (le_bytes src = le_bytes d mod 2 ^ (8 * (be - bo))) as ->.
  { rewrite <- (firstn_skipn (Z.to_nat (be - bo)) d). fold src. rewrite le_bytes_app, Ls.
    rewrite Z.mul_comm, Z.mod_add by (apply Z.pow_nonzero; lia). symmetry; apply Z.mod_small; auto. }
  apply mod_div_mod; lia.
Qed.

Lemma slice_not_err {A} (l : list A) a b msg : slice l a b <> Err msg.
Proof. unfold slice. destruct (_ && _); discriminate. Qed.

Lemma getbits_raw_panic m data p n dst : 0 <= p -> 0 <= n -> p + n < 2 ^ 64 -> 8 * zlen data < p + n ->
  getbits_raw m data p n dst = Panic.
Proof.
  intros Hp Hn Hov Hl. unfold getbits_raw. rewrite ua_ok by lia. cbn [bind]. rewrite div_ceil8 by lia.
  assert (0 <= p / 8 <= (p + n + 7) / 8 /\ zlen data < (p + n + 7) / 8 /\ (p + n + 7) / 8 < 2 ^ 64) as (H1 & H2 & H3).
  { change (2 ^ 64) with 18446744073709551616 in *. dlia. }
  rewrite ua_ok by lia. cbn [bind].
  pose proof (slice_not_err dst 0 ((p + n + 7) / 8 - p / 8)) as E.
  destruct (slice dst 0 _); cbn [bind]; auto.
  - unfold slice. destruct (Z.leb_spec ((p + n + 7) / 8) (zlen data)); [lia|].
    rewrite andb_false_r. auto.
  - destruct (E msg); auto.
Qed.

Lemma land_7 x : Z.land x 7 = x mod 8.
Proof. change 7 with (2 ^ 3 - 1). apply land_mask. lia. Qed.

Lemma peek_ok m data pos off n : bytes data -> 0 <= pos -> 0 <= off -> 0 <= n <= 15 ->
  pos + off + n <= 8 * zlen data -> pos + off + n < 2 ^ 64 ->
  peek m data pos off n = Ok (bits data (pos + off) n).
Proof.
  intros Hb Hp Ho Hn Hl Hs. unfold peek. rewrite ua_ok by lia. cbn [bind]. rewrite land_7.
  set (p := pos + off) in *. pose proof (Z.mod_pos_bound p 8 ltac:(lia)).
  destruct (getbits_raw_ok m data p n) as (raw & E & B & F); try lia; auto.
  rewrite E. cbn [bind]. rewrite ushr_ok by lia. cbn [bind].
  unfold u16. rewrite (Z.mod_small n) by lia. rewrite ushl_ok by lia. cbn [bind].
  assert (1 <= 2 ^ n < 2 ^ 16).
  { split; [|apply Z.pow_lt_mono_r; lia]. pose proof (Z.pow_pos_nonneg 2 n). lia. }
  rewrite Z.mul_1_l, Z.mod_small by lia. rewrite ua_ok by lia. cbn [bind].
  rewrite land_mask by lia. f_equal. rewrite <- F.
  pose proof (mod_div_mod (le_bytes raw / 2 ^ (p mod 8)) 16 0 n ltac:(lia) ltac:(lia) ltac:(lia)) as G.
  change (2 ^ 0) with 1 in G. rewrite !Z.div_1_r in G. auto.
Qed.

Lemma peek_panic m data pos off n : 0 <= pos -> 0 <= off -> 0 <= n -> pos + off + n < 2 ^ 64 ->
  8 * zlen data < pos + off + n -> peek m data pos off n = Panic.
Proof.
  intros. unfold peek. rewrite ua_ok by lia. cbn [bind]. rewrite getbits_raw_panic by lia. auto.
Qed.

Lemma read_ok m data pos n : bytes data -> 0 <= pos -> 0 <= n <= 15 ->
  pos + n <= 8 * zlen data -> pos + n < 2 ^ 64 ->
  read m data pos n = Ok (bits data pos n, pos + n).
Proof.
  intros. unfold read. rewrite peek_ok by (auto; lia). cbn [bind]. rewrite ua_ok by lia. cbn [bind].
  rewrite Z.add_0_r. auto.
Qed.

Lemma land_low x y n : 0 <= n -> x mod 2 ^ n = y mod 2 ^ n -> Z.land x (2 ^ n - 1) = y mod 2 ^ n.
Proof. intros. rewrite land_mask by lia. auto. Qed.

(** The arithmetic shift of the sign-extended word agrees on the low bits. *)
Lemma swrap_shift x s n : 0 <= x < 2 ^ 32 -> 0 <= s -> 0 <= n -> s + n <= 32 ->
  Z.shiftr (swrap 32 x) s mod 2 ^ n = x / 2 ^ s mod 2 ^ n.
Proof.
  intros. rewrite shr_div by lia. unfold swrap. rewrite (Z.mod_small x) by lia.
  destruct (Z.ltb_spec x (2 ^ (32 - 1))); auto.
  replace (2 ^ 32) with (2 ^ n * 2 ^ (32 - s - n) * 2 ^ s).
  2:{ rewrite <- !Z.pow_add_r by lia. f_equal; lia. }
  replace (x - 2 ^ n * 2 ^ (32 - s - n) * 2 ^ s) with (x + (- (2 ^ n * 2 ^ (32 - s - n))) * 2 ^ s) by ring.
  rewrite Z.div_add by (apply Z.pow_nonzero; lia).
  replace (x / 2 ^ s + - (2 ^ n * 2 ^ (32 - s - n))) with (x / 2 ^ s + (- 2 ^ (32 - s - n)) * 2 ^ n) by ring.
  apply Z.mod_add, Z.pow_nonzero; lia.
Qed.

Lemma getbits_ok m data p n : bytes data -> 0 <= p -> 0 <= n <= 30 -> p mod 8 + n <= 32 ->
  p + n <= 8 * zlen data -> p + n < 2 ^ 64 ->
  getbits m data p n = Ok (bits data p n).
Proof.
  intros Hb Hp Hn H32 Hl Hs. unfold getbits. pose proof (Z.mod_pos_bound p 8 ltac:(lia)).
  destruct (getbits_raw_ok m data p n) as (raw & E & B & F); try lia; auto.
  rewrite E. cbn [bind]. rewrite sh_amt_ok by lia. cbn [bind].
  unfold ishl. rewrite sh_amt_ok by lia. cbn [bind]. rewrite shl_mul, Z.mul_1_l by lia.
  assert (1 <= 2 ^ n <= 2 ^ 30).
  { split; [|apply Z.pow_le_mono_r; lia]. pose proof (Z.pow_pos_nonneg 2 n). lia. }
  assert (swrap 32 (2 ^ n) = 2 ^ n) as ->.
  { unfold swrap. rewrite Z.mod_small by lia. destruct (Z.ltb_spec (2 ^ n) (2 ^ (32 - 1))); lia. }
  rewrite ia_ok by lia. cbn [bind]. rewrite land_mask by lia. f_equal.
  rewrite swrap_shift by lia. auto.
Qed.

Lemma getbits_panic m data p n : 0 <= p -> 0 <= n -> p + n < 2 ^ 64 -> 8 * zlen data < p + n ->
  getbits m data p n = Panic.
Proof. intros. unfold getbits. rewrite getbits_raw_panic by lia. auto. Qed.

Lemma word64_ok data a : bytes data -> 0 <= a -> a + 8 <= zlen data ->
  word64 data a = Ok (bits data (8 * a) 64).
Proof.
  intros. unfold word64. rewrite slice_ok by lia. cbn [bind]. f_equal.
  unfold bits. rewrite le_bytes_skip by auto. set (d := skipn _ _).
  replace (Z.to_nat (a + 8 - a)) with 8%nat by lia.
  assert (zlen (firstn 8 d) = 8) as L by (unfold d; rewrite zlen_firstn, zlen_skipn; lia).
  pose proof (le_bytes_bound (firstn 8 d)) as B. rewrite L in B. change (8 * 8) with 64 in B.
  specialize (B ltac:(apply bytes_firstn, bytes_skipn; auto)).
  rewrite <- (firstn_skipn 8 d) at 2. rewrite le_bytes_app, L. change (8 * 8) with 64.
  rewrite Z.mul_comm, Z.mod_add by (apply Z.pow_nonzero; lia). symmetry. apply Z.mod_small; auto.
Qed.

Lemma mask64 m len : 0 <= len <= 64 ->
  (if len =? 64 then Ok 0xffffffffffffffff else let* one := ushl m 64 1 len in ua m 64 (one - 1)) = Ok (2 ^ len - 1).
Proof.
  intros. destruct (Z.eqb_spec len 64) as [->|]; [reflexivity|].
  rewrite ushl_ok by lia. cbn [bind].
  assert (1 <= 2 ^ len < 2 ^ 64).
  { split; [|apply Z.pow_lt_mono_r; lia]. pose proof (Z.pow_pos_nonneg 2 len). lia. }
  rewrite Z.mul_1_l, Z.mod_small by lia. apply ua_ok. lia.
Qed.

(** A field inside a longer field. *)
Lemma bits_bits data p q n k : 0 <= p -> 0 <= q -> 0 <= n -> q + n <= k ->
  bits data p k / 2 ^ q mod 2 ^ n = bits data (p + q) n.
Proof. intros. unfold bits. rewrite mod_div_mod by lia. rewrite div_pow_split by lia. auto. Qed.

(** Beyond the last byte the field reads zeros. *)
Lemma getbits64_ok m data bit len : bytes data -> zlen data = 16 -> 0 <= bit < 128 -> 0 <= len <= 64 ->
  getbits64 m data bit len = Ok (bits data bit len).
Proof.
  intros Hb Hl Hbit Hlen. unfold getbits64. rewrite mask64 by lia. cbn [bind].
  destruct (Z.eqb_spec len 0) as [->|]; [rewrite bits_zero; auto|].
  destruct (Z.leb_spec 64 bit).
  - rewrite word64_ok by (auto; lia). cbn [bind]. rewrite ushr_ok by lia. cbn [bind].
    rewrite land_mask by lia. f_equal. change (8 * 8) with 64.
    unfold bits. pose proof (le_bytes_bound data Hb) as B. rewrite Hl in B. change (8 * 16) with (64 + 64) in B.
    rewrite Z.pow_add_r in B by lia.
    rewrite (Z.mod_small (le_bytes data / 2 ^ 64)).
    2:{ split; [apply Z.div_pos; lia|]. apply Z.div_lt_upper_bound; lia. }
    rewrite <- div_pow_split by lia. do 3 f_equal. lia.
  - destruct (Z.leb_spec bit 0).
    + replace bit with 0 by lia. rewrite word64_ok by (auto; lia). cbn [bind].
      change (u64 (- u64 0)) with 0. rewrite ushl_ok by lia. cbn [bind]. rewrite land_mask by lia.
      f_equal. change (2 ^ 0) with 1. rewrite Z.mul_1_r. change (8 * 0) with 0.
      pose proof (bits_range data 0 64 ltac:(lia)). rewrite (Z.mod_small (bits data 0 64)) by lia.
      pose proof (bits_bits data 0 0 len 64 ltac:(lia) ltac:(lia) ltac:(lia) ltac:(lia)) as E.
      change (2 ^ 0) with 1 in E. rewrite Z.div_1_r in E. auto.
    + rewrite ua_ok by lia. cbn [bind]. destruct (Z.leb_spec (bit + len) 64).
      * rewrite word64_ok by (auto; lia). cbn [bind]. rewrite ushr_ok by lia. cbn [bind]. rewrite land_mask by lia.
        f_equal. change (8 * 0) with 0. apply bits_bits; lia.
      * rewrite !word64_ok by (auto; lia). cbn [bind]. rewrite ushr_ok by lia. cbn [bind].
        rewrite ushl_ok by lia. cbn [bind]. rewrite land_mask by lia. f_equal.
        change (8 * 0) with 0. change (8 * 8) with 64.
        assert (bits data 0 64 / 2 ^ bit = bits data bit (64 - bit)) as ->.
        { pose proof (bits_bits data 0 bit (64 - bit) 64 ltac:(lia) ltac:(lia) ltac:(lia) ltac:(lia)) as E.
          rewrite Z.add_0_l in E. rewrite <- E. symmetry. apply Z.mod_small.
          pose proof (bits_range data 0 64 ltac:(lia)). split; [apply Z.div_pos; lia|].
          apply Z.div_lt_upper_bound; [lia|]. rewrite <- Z.pow_add_r by lia. replace (bit + (64 - bit)) with 64 by lia. lia. }
        assert ((bits data 64 64 * 2 ^ (64 - bit)) mod 2 ^ 64 mod 2 ^ len =
                bits data 64 (len - (64 - bit)) * 2 ^ (64 - bit)) as ->.
        { pose proof (mod_div_mod (bits data 64 64 * 2 ^ (64 - bit)) 64 0 len ltac:(lia) ltac:(lia) ltac:(lia)) as G.
          change (2 ^ 0) with 1 in G. rewrite !Z.div_1_r in G. rewrite G.
          replace (2 ^ len) with (2 ^ (len - (64 - bit)) * 2 ^ (64 - bit)) by (rewrite <- Z.pow_add_r by lia; f_equal; lia).
          rewrite Z.mul_mod_distr_r by (apply Z.pow_nonzero; lia). f_equal.
          pose proof (bits_bits data 64 0 (len - (64 - bit)) 64 ltac:(lia) ltac:(lia) ltac:(lia) ltac:(lia)) as E.
          change (2 ^ 0) with 1 in E. rewrite Z.div_1_r in E. auto. }
        rewrite lor_comm_add by (try lia; apply bits_range; lia).
        replace len with ((64 - bit) + (len - (64 - bit))) at 2 by lia.
        rewrite bits_concat by lia. replace (bit + (64 - bit)) with 64 by lia. lia.
Qed.

(** Negative positions shift in zeros from below. *)
Lemma getbits64_neg m data bit len : bytes data -> 8 <= zlen data -> -64 < bit <= 0 -> 1 <= len <= 64 ->
  getbits64 m data bit len = Ok ((bits data 0 64 * 2 ^ (- bit)) mod 2 ^ len).
Proof.
  intros Hb Hl Hbit Hlen. unfold getbits64. rewrite mask64 by lia. cbn [bind].
  destruct (Z.eqb_spec len 0) as [->|]; [lia|].
  destruct (Z.leb_spec 64 bit); [lia|]. destruct (Z.leb_spec bit 0); [|lia].
  rewrite word64_ok by (auto; lia). cbn [bind].
  assert (u64 (- u64 bit) = - bit) as ->.
  { unfold u64. change (2 ^ 64) with 18446744073709551616. dlia. }
  rewrite ushl_ok by lia. cbn [bind]. rewrite land_mask by lia. f_equal. change (8 * 0) with 0.
  pose proof (mod_div_mod (bits data 0 64 * 2 ^ (- bit)) 64 0 len ltac:(lia) ltac:(lia) ltac:(lia)) as G.
  change (2 ^ 0) with 1 in G. rewrite !Z.div_1_r in G. auto.
Qed.

Lemma bits_firstn data k p n : bytes data -> 0 <= p -> 0 <= n -> 0 <= k -> p + n <= 8 * k ->
  bits (firstn (Z.to_nat k) data) p n = bits data p n.
Proof.
  intros Hb Hp Hn Hk Hl. apply Z.bits_inj'. intros i Hi. destruct (Z.ltb_spec i n).
  - rewrite !bits_testbit by (auto using bytes_firstn; lia). f_equal.
    assert (0 <= (p + i) / 8 < k) by dlia. apply znth_firstn; lia.
  - unfold bits. rewrite !Z.mod_pow2_bits_high by lia. auto.
Qed.

Lemma bits_testbit_full data p n i : bytes data -> 0 <= p -> 0 <= n -> 0 <= i ->
  Z.testbit (bits data p n) i =
  (i <? n) && Z.testbit (znth data ((p + i) / 8)) ((p + i) mod 8).
Proof.
  intros. destruct (Z.ltb_spec i n).
  - rewrite bits_testbit by (auto; lia). auto.
  - unfold bits. rewrite Z.mod_pow2_bits_high by lia. auto.
Qed.

Lemma read_read m data pos a b : bytes data -> 0 <= pos -> 0 <= a <= 15 -> 0 <= b <= 15 ->
  pos + a + b <= 8 * zlen data -> pos + a + b < 2 ^ 64 ->
  exists x y, read m data pos a = Ok (x, pos + a) /\ read m data (pos + a) b = Ok (y, pos + a + b) /\
    x + 2 ^ a * y = bits data pos (a + b).
Proof.
  intros. do 2 eexists. split; [apply read_ok; auto; lia|]. split; [apply read_ok; auto; lia|].
  rewrite bits_concat by lia. auto.
Qed.

Lemma past_end_panics m data pos n : 0 <= pos -> 0 <= n -> pos + n < 2 ^ 64 -> 8 * zlen data < pos + n ->
  read m data pos n = Panic /\ peek m data pos 0 n = Panic /\ getbits m data pos n = Panic.
Proof.
  intros. unfold read. rewrite peek_panic by lia. rewrite getbits_panic by lia. auto.
Qed.

Lemma peek16 data pos : bytes data -> 0 <= pos -> pos + 16 <= 8 * zlen data -> pos + 16 < 2 ^ 64 ->
  peek Checked data pos 0 16 = Panic /\ peek Wrapping data pos 0 16 = Ok 0.
Proof.
  intros Hb Hp Hl Hs. pose proof (Z.mod_pos_bound pos 8 ltac:(lia)).
  split; unfold peek; rewrite ua_ok by lia; cbn [bind]; rewrite Z.add_0_r, land_7.
  - destruct (getbits_raw_ok Checked data pos 16) as (raw & E & B & F); try lia; auto.
    rewrite E. cbn [bind]. rewrite ushr_ok by lia. cbn [bind]. reflexivity.
  - destruct (getbits_raw_ok Wrapping data pos 16) as (raw & E & B & F); try lia; auto.
    rewrite E. cbn [bind]. rewrite ushr_ok by lia. cbn [bind].
    change (ushl Wrapping 16 1 (u16 16)) with (Ok 1). cbn [bind]. change (ua Wrapping 16 (1 - 1)) with (Ok 0). cbn [bind].
    rewrite Z.land_0_r. auto.
Qed.
