(** * Proofs about bit lists and the bit buffer of the codec. *)
From Verif Require Import Base BaseLemmas ModelCrn SpecCrn.

Lemma value_acc bs : forall a, fold_left (fun a b => 2 * a + Z.b2z b) bs a = a * 2 ^ zlen bs + value bs.
Proof.
  unfold value. induction bs as [|b bs IH]; intros a; cbn [fold_left].
  - rewrite zlen_nil. lia.
  - rewrite IH, (IH (2 * 0 + _)), zlen_cons, Z.pow_add_r by (pose proof (zlen_nonneg bs); lia). lia.
Qed.
Lemma value_cons b bs : value (b :: bs) = Z.b2z b * 2 ^ zlen bs + value bs.
Proof. unfold value at 1. cbn [fold_left]. rewrite value_acc. lia. Qed.
Lemma value_app a b : value (a ++ b) = value a * 2 ^ zlen b + value b.
Proof. unfold value at 1. rewrite fold_left_app. fold (value a). apply value_acc. Qed.
Lemma value_range bs : 0 <= value bs < 2 ^ zlen bs.
Proof.
  induction bs as [|b bs IH].
  - cbv. split; congruence.
  - rewrite value_cons, zlen_cons, Z.pow_add_r by (pose proof (zlen_nonneg bs); lia).
    destruct b; cbn [Z.b2z]; lia.
Qed.
Lemma value_inj a : forall b, length a = length b -> value a = value b -> a = b.
Proof.
  induction a as [|x a IH]; intros [|y b] L V; try discriminate; auto.
  rewrite !value_cons in V. injection L as L.
  assert (zlen a = zlen b) as LL by (unfold zlen; lia). rewrite LL in V.
  pose proof (value_range a) as Ra. pose proof (value_range b) as Rb. rewrite LL in Ra.
  destruct x, y; cbn [Z.b2z] in V; try lia; f_equal; apply IH; auto; lia.
Qed.
Lemma zlen_bits_of n v : 0 <= n -> zlen (bits_of n v) = n.
Proof. intros. unfold bits_of, zlen. rewrite map_length. fold (zlen (zrange 0 n)). rewrite zlen_zrange. lia. Qed.
Lemma bits_of_snoc n v : 0 <= n -> bits_of (n + 1) v = bits_of n (v / 2) ++ [Z.odd v].
Proof.
  intros H. unfold bits_of. rewrite zrange_snoc by lia. rewrite map_app. f_equal.
  - apply map_ext_in. intros i Hi. apply in_zrange in Hi.
    rewrite <- Z.div2_div, Z.div2_spec, Z.shiftr_spec by lia. f_equal. lia.
  - cbn [map]. rewrite <- Z.bit0_odd. do 2 f_equal. lia.
Qed.
Lemma value_bits_of n : 0 <= n -> forall v, value (bits_of n v) = v mod 2 ^ n.
Proof.
  intros H. pattern n. apply natlike_ind; auto.
  - intros v. cbn. rewrite Z.mod_1_r. reflexivity.
  - clear n H. intros n Hn IH v. unfold Z.succ. rewrite bits_of_snoc by lia.
    rewrite value_app, IH. replace (2 ^ (n + 1)) with (2 * 2 ^ n) by (rewrite Z.pow_add_r by lia; lia).
    assert (0 < 2 ^ n) by (apply Z.pow_pos_nonneg; lia).
    rewrite (Z.rem_mul_r v 2) by lia.
    rewrite (Zmod_odd v). change (2 ^ zlen [Z.odd v]) with 2.
    destruct (Z.odd v); change (value [true]) with 1; change (value [false]) with 0; lia.
Qed.
Lemma bits_of_value bs : bits_of (zlen bs) (value bs) = bs.
Proof.
  pose proof (zlen_nonneg bs) as H. pose proof (value_range bs). apply value_inj.
  - apply Nat2Z.inj. fold (zlen (bits_of (zlen bs) (value bs))). rewrite zlen_bits_of by lia. reflexivity.
  - rewrite value_bits_of by lia. apply Z.mod_small. lia.
Qed.

(** The bits held by [bit_buf]. *)
Definition buffered (c : codec) (B : list bool) : Prop :=
  zlen B = c_bit_count c /\ c_bit_count c <= 32 /\ c_bit_buf c = value B * 2 ^ (32 - c_bit_count c).
(** The bytes of the stream from [pos] to [last]. *)
Definition bytes_at (buf : list Z) (pos last : Z) : list Z :=
  firstn (Z.to_nat (last + 1 - pos)) (skipn (Z.to_nat pos) buf).
(** The bytes of the stream not yet in [bit_buf]. *)
Definition unread (c : codec) : list Z := bytes_at (c_buf c) (c_pos c) (c_end c).
(** The codec delivers the bits [bs] (and maybe more). *)
Definition carries (c : codec) (bs : list bool) : Prop :=
  bytes (c_buf c) /\ 0 <= c_pos c <= c_end c + 1 /\ c_end c < zlen (c_buf c) /\
  exists B more, buffered c B /\ B ++ bit_stream (unread c) = bs ++ more.

Lemma zlen_bit_stream l : zlen (bit_stream l) = 8 * zlen l.
Proof.
  induction l as [|b l IH]; [reflexivity|]. cbn [bit_stream flat_map]. fold (bit_stream l).
  rewrite zlen_app, zlen_bits_of, IH, zlen_cons by lia. lia.
Qed.
Lemma zlen_bytes_at buf pos last : 0 <= pos <= last + 1 -> last < zlen buf ->
  zlen (bytes_at buf pos last) = last + 1 - pos.
Proof. intros. unfold bytes_at. rewrite zlen_firstn, zlen_skipn. lia. Qed.
Lemma bytes_at_cons buf pos last : 0 <= pos <= last -> last < zlen buf ->
  bytes_at buf pos last = znth buf pos :: bytes_at buf (pos + 1) last.
Proof.
  intros H H'. unfold bytes_at. rewrite (skipn_step buf pos) by lia.
  replace (Z.to_nat (last + 1 - pos)) with (S (Z.to_nat (last + 1 - (pos + 1)))) by lia.
  reflexivity.
Qed.
Lemma bytes_at_nil buf last : bytes_at buf (last + 1) last = [].
Proof. unfold bytes_at. replace (Z.to_nat (last + 1 - (last + 1))) with 0%nat by lia. reflexivity. Qed.

Lemma carries_prefix c a b : carries c (a ++ b) -> carries c a.
Proof.
  intros (H & P & E & B & more & F & X). split; [auto|split; [auto|split; [auto|]]].
  exists B, (b ++ more). rewrite app_assoc. auto.
Qed.

(** Putting [k] more bits into [bit_buf]. *)
Lemma add_bits m k bb cnt B b : zlen B = cnt -> 0 < k -> cnt + k <= 32 -> bb = value B * 2 ^ (32 - cnt) -> 0 <= b < 2 ^ k ->
  ushl m 32 b (32 - (cnt + k)) = Ok (b * 2 ^ (32 - (cnt + k))) /\
  zlen (B ++ bits_of k b) = cnt + k /\
  Z.lor bb (b * 2 ^ (32 - (cnt + k))) = value (B ++ bits_of k b) * 2 ^ (32 - (cnt + k)).
Proof.
  intros L K C -> Hb. pose proof (zlen_nonneg B) as HB.
  assert (0 < 2 ^ (32 - (cnt + k))) by (apply Z.pow_pos_nonneg; lia).
  assert (2 ^ (32 - cnt) = 2 ^ k * 2 ^ (32 - (cnt + k))) as E by (rewrite <- Z.pow_add_r by lia; f_equal; lia).
  split; [|split].
  - rewrite ushl_ok by lia.
    rewrite Z.mod_small; [reflexivity|]. split; [nia|].
    apply Z.lt_le_trans with (2 ^ k * 2 ^ (32 - (cnt + k))); [nia|]. rewrite <- E. apply Z.pow_le_mono_r; lia.
  - rewrite zlen_app, zlen_bits_of by lia. lia.
  - rewrite lor_add by nia.
    rewrite value_app, value_bits_of, zlen_bits_of by lia.
    rewrite Z.mod_small by lia. rewrite E. ring.
Qed.
Lemma bits_of_16 a b : 0 <= a < 256 -> 0 <= b < 256 -> bits_of 16 (a * 2 ^ 8 + b) = bits_of 8 a ++ bits_of 8 b.
Proof.
  intros Ha Hb. apply value_inj.
  - reflexivity.
  - rewrite value_app, !value_bits_of, zlen_bits_of by lia. rewrite !Z.mod_small by lia. lia.
Qed.

(** Taking [n] bits off. *)
Lemma split_bits (B a : list bool) r r' : zlen a <= zlen B -> B ++ r = a ++ r' -> exists B', B = a ++ B'.
Proof.
  intros L E. exists (skipn (length a) B).
  rewrite <- (firstn_skipn (length a) B) at 1. f_equal.
  apply (f_equal (firstn (length a))) in E. unfold zlen in L.
  rewrite firstn_app, firstn_app, firstn_all in E.
  replace (length a - length B)%nat with 0%nat in E by lia.
  replace (length a - length a)%nat with 0%nat in E by lia.
  cbn [firstn] in E. rewrite !app_nil_r in E. exact E.
Qed.
Lemma take_bits m bb cnt a B' n : zlen (a ++ B') = cnt -> cnt <= 32 -> bb = value (a ++ B') * 2 ^ (32 - cnt) -> zlen a = n ->
  n < 32 ->
  (1 <= n -> ushr m 32 bb (32 - n) = Ok (value a)) /\
  ushl m 32 bb n = Ok (value B' * 2 ^ (32 - (cnt - n))) /\ zlen B' = cnt - n /\ 0 <= bb < 2 ^ 32.
Proof.
  intros L C -> La Hn. rewrite zlen_app in L. pose proof (zlen_nonneg a). pose proof (zlen_nonneg B').
  pose proof (value_range a) as Ra. pose proof (value_range B') as Rb. rewrite La in Ra.
  replace (zlen B') with (cnt - n) in Rb by lia.
  assert (0 < 2 ^ (32 - cnt)) by (apply Z.pow_pos_nonneg; lia).
  rewrite value_app. replace (zlen B') with (cnt - n) by lia.
  assert (2 ^ (cnt - n) * 2 ^ (32 - cnt) = 2 ^ (32 - n)) as E by (rewrite <- Z.pow_add_r by lia; f_equal; lia).
  assert ((value a * 2 ^ (cnt - n) + value B') * 2 ^ (32 - cnt) = value a * 2 ^ (32 - n) + value B' * 2 ^ (32 - cnt)) as F
    by (rewrite <- E; ring).
  rewrite F.
  assert (0 <= value B' * 2 ^ (32 - cnt) < 2 ^ (32 - n)) as R by (rewrite <- E; nia).
  assert (2 ^ 32 = 2 ^ n * 2 ^ (32 - n)) as E2 by (rewrite <- Z.pow_add_r by lia; f_equal; lia).
  split; [|split; [|split]].
  - intros Hn1. rewrite ushr_ok by lia. f_equal. rewrite Z.div_add_l by lia. rewrite Z.div_small by lia. lia.
  - rewrite ushl_ok by lia. f_equal.
    rewrite Z.mul_add_distr_r, <- Z.mul_assoc, (Z.mul_comm (2 ^ (32 - n))), <- E2.
    rewrite Z.add_comm, Z.mod_add by lia.
    rewrite <- Z.mul_assoc, <- Z.pow_add_r by lia. replace (32 - cnt + n) with (32 - (cnt - n)) by lia.
    apply Z.mod_small.
    assert (2 ^ (cnt - n) * 2 ^ (32 - (cnt - n)) = 2 ^ 32) as E3 by (rewrite <- Z.pow_add_r by lia; f_equal; lia).
    assert (0 < 2 ^ (32 - (cnt - n))) by (apply Z.pow_pos_nonneg; lia).
    nia.
  - lia.
  - rewrite E2. nia.
Qed.

Lemma peek_byte_ok c pos : bytes (c_buf c) -> 0 <= pos <= c_end c + 1 -> c_end c < zlen (c_buf c) -> pos < zlen (c_buf c) ->
  exists b p extra, peek_byte c pos = Ok (b, p) /\ 0 <= b < 256 /\ 0 <= p <= c_end c + 1 /\ p < zlen (c_buf c) /\
    bits_of 8 b ++ bit_stream (bytes_at (c_buf c) p (c_end c)) = bit_stream (bytes_at (c_buf c) pos (c_end c)) ++ extra.
Proof.
  intros Hb Hp He Hl. unfold peek_byte. rewrite idx_ok by lia. cbn [bind].
  pose proof (bytes_znth (c_buf c) pos Hb) as R.
  destruct (Z.leb_spec pos (c_end c)); [destruct (Z.ltb_spec pos (c_end c))|].
  - exists (znth (c_buf c) pos), (pos + 1), []. repeat split; try lia.
    rewrite app_nil_r, (bytes_at_cons _ pos) by lia. reflexivity.
  - replace pos with (c_end c) in * by lia.
    exists (znth (c_buf c) (c_end c)), (c_end c), (bits_of 8 (znth (c_buf c) (c_end c))). repeat split; try lia.
    rewrite bytes_at_cons, bytes_at_nil by lia. cbn [bit_stream flat_map]. rewrite app_nil_r. reflexivity.
  - replace pos with (c_end c + 1) in * by lia.
    exists 0, (c_end c + 1), (bits_of 8 0). repeat split; try lia.
    rewrite bytes_at_nil. reflexivity.
Qed.

(** Refilling keeps the bits to be delivered and leaves at least 16 of them
    in the buffer. *)
Lemma refill_ok m c bs : carries c bs -> c_pos c < zlen (c_buf c) ->
  exists c', refill m c = Ok c' /\ carries c' bs /\ 16 <= c_bit_count c' /\
    c_buf c' = c_buf c /\ c_end c' = c_end c /\ c_pos c' < zlen (c_buf c).
Proof.
  intros (Hb & P & E & B & more & (L & L' & V) & X) Hl. unfold refill.
  pose proof (zlen_nonneg B) as HB. unfold unread in X.
  destruct (Z.ltb_spec (c_bit_count c) 24) as [H24|H24];
    [destruct (Z.ltb_spec (c_bit_count c) 16) as [H16|H16]|].
  - destruct (peek_byte_ok c (c_pos c) Hb P E Hl) as (b0 & p0 & x0 & E0 & R0 & P0 & L0 & X0).
    destruct (peek_byte_ok c p0 Hb P0 E L0) as (b1 & p1 & x1 & E1 & R1 & P1 & L1 & X1).
    rewrite E0. cbn [bind]. rewrite E1. cbn [bind].
    rewrite (shl_mul b0 8), lor_add by lia.
    destruct (add_bits m 16 (c_bit_buf c) (c_bit_count c) B (b0 * 2 ^ 8 + b1)) as (A1 & A2 & A3); try lia; auto.
    rewrite A1. cbn [bind]. eexists. split; [reflexivity|]. cbn [c_bit_count c_buf c_end c_pos].
    split; [|repeat split; lia].
    split; [exact Hb|]. cbn [c_bit_count c_buf c_end c_pos]. split; [lia|split; [lia|]].
    exists (B ++ bits_of 16 (b0 * 2 ^ 8 + b1)), (more ++ x0 ++ x1). split; [repeat split; auto; cbn; lia|].
    rewrite bits_of_16 by lia. unfold unread. cbn [c_buf c_pos c_end].
    rewrite <- app_assoc, <- app_assoc, X1, (app_assoc (bits_of 8 b0)), X0, !app_assoc, X, <- !app_assoc. reflexivity.
  - destruct (peek_byte_ok c (c_pos c) Hb P E Hl) as (b0 & p0 & x0 & E0 & R0 & P0 & L0 & X0).
    rewrite E0. cbn [bind].
    destruct (add_bits m 8 (c_bit_buf c) (c_bit_count c) B b0) as (A1 & A2 & A3); try lia; auto.
    rewrite A1. cbn [bind]. eexists. split; [reflexivity|]. cbn [c_bit_count c_buf c_end c_pos].
    split; [|repeat split; lia].
    split; [exact Hb|]. cbn [c_bit_count c_buf c_end c_pos]. split; [lia|split; [lia|]].
    exists (B ++ bits_of 8 b0), (more ++ x0). split; [repeat split; auto; cbn; lia|].
    unfold unread. cbn [c_buf c_pos c_end].
    rewrite <- app_assoc, X0, !app_assoc, X, <- !app_assoc. reflexivity.
  - exists c. split; [reflexivity|]. split; [|repeat split; lia].
    split; [exact Hb|split; [lia|split; [lia|]]]. exists B, more. split; [repeat split; auto|exact X].
Qed.

(** Reading raw bits. *)
Lemma get_bits_loop_ok m n : 0 <= n <= 25 -> forall fuel c bs, carries c bs -> n <= zlen bs ->
  n <= c_bit_count c + 8 * Z.of_nat fuel ->
  exists c', get_bits_loop m fuel n c = Ok c' /\ carries c' bs /\ n <= c_bit_count c' /\
    c_buf c' = c_buf c /\ c_end c' = c_end c.
Proof.
  intros Hn. induction fuel as [|fuel IH]; intros c bs H Hl Hf.
  - cbn [get_bits_loop]. destruct (Z.ltb_spec (c_bit_count c) n); [lia|]. exists c. split; [reflexivity|split; [exact H|split; [lia|auto]]].
  - cbn [get_bits_loop]. destruct (Z.ltb_spec (c_bit_count c) n) as [Hc|Hc].
    2: { exists c. split; [reflexivity|split; [exact H|split; [lia|auto]]]. }
    destruct H as (Hb & P & E & B & more & (L & L' & V) & X). unfold unread in X.
    assert (c_pos c <= c_end c) as Hp.
    { apply (f_equal zlen) in X. rewrite !zlen_app, zlen_bit_stream, zlen_bytes_at in X by lia.
      pose proof (zlen_nonneg more). lia. }
    rewrite idx_ok by lia. cbn [bind]. unfold BIT_BUF_SIZE.
    destruct (Z.ltb_spec 32 (c_bit_count c + 8)); [lia|].
    pose proof (bytes_znth (c_buf c) (c_pos c) Hb) as R. pose proof (zlen_nonneg B).
    destruct (add_bits m 8 (c_bit_buf c) (c_bit_count c) B (znth (c_buf c) (c_pos c))) as (A1 & A2 & A3); try lia; auto.
    rewrite A1. cbn [bind].
    edestruct (IH (mkCodec (c_buf c) (c_pos c + 1) (c_end c) (Z.lor (c_bit_buf c)
         (znth (c_buf c) (c_pos c) * 2 ^ (32 - (c_bit_count c + 8)))) (c_bit_count c + 8)) bs) as (c' & G & K);
      [|exact Hl| |exists c'; split; [exact G|exact K]].
    + split; [exact Hb|]. cbn [c_bit_count c_buf c_end c_pos]. split; [lia|split; [lia|]].
      exists (B ++ bits_of 8 (znth (c_buf c) (c_pos c))), more. split; [repeat split; auto; cbn; lia|].
      unfold unread. cbn [c_buf c_pos c_end]. rewrite bytes_at_cons in X by lia. cbn [bit_stream flat_map] in X.
      rewrite <- app_assoc. exact X.
    + cbn [c_bit_count]. lia.
Qed.

(** Dropping the delivered bits [a]. *)
Lemma drop_ok m c a bs : carries c (a ++ bs) -> zlen a <= c_bit_count c -> zlen a < 32 ->
  exists rest, ushl m 32 (c_bit_buf c) (zlen a) = Ok rest /\
    (1 <= zlen a -> ushr m 32 (c_bit_buf c) (32 - zlen a) = Ok (value a)) /\
    0 <= c_bit_buf c < 2 ^ 32 /\ 0 <= c_bit_count c <= 32 /\
    carries (mkCodec (c_buf c) (c_pos c) (c_end c) rest (c_bit_count c - zlen a)) bs.
Proof.
  intros (Hb & P & E & B & more & (L & L' & V) & X) Ha Ha'.
  rewrite <- app_assoc in X. destruct (split_bits B a _ _ ltac:(lia) X) as (B' & ->).
  destruct (take_bits m (c_bit_buf c) (c_bit_count c) a B' (zlen a) L L' V eq_refl Ha') as (T1 & T2 & T3 & T4).
  pose proof (zlen_nonneg a). pose proof (zlen_nonneg B').
  exists (value B' * 2 ^ (32 - (c_bit_count c - zlen a))).
  split; [exact T2|split; [exact T1|split; [exact T4|split; [lia|]]]].
  split; [exact Hb|split; [exact P|split; [exact E|]]].
  exists B', more. split; [repeat split; cbn; lia|].
  unfold unread in *. cbn [c_buf c_pos c_end]. rewrite <- app_assoc in X. apply app_inv_head in X. exact X.
Qed.

Lemma get_bits_ok m n c bs v : 1 <= n <= 25 -> 0 <= v < 2 ^ n -> carries c (bits_of n v ++ bs) ->
  exists c', get_bits m n c = Ok (v, c') /\ carries c' bs /\ c_buf c' = c_buf c /\ c_end c' = c_end c.
Proof.
  intros Hn Hv H. unfold get_bits. destruct (Z.ltb_spec 32 n); [lia|].
  assert (zlen (bits_of n v) = n) as Lb by (apply zlen_bits_of; lia).
  assert (0 <= c_bit_count c) as Hc.
  { destruct H as (_ & _ & _ & B & more & (L & _) & _). pose proof (zlen_nonneg B). lia. }
  destruct (get_bits_loop_ok m n ltac:(lia) 5 c _ H) as (c1 & G & H1 & C1 & B1 & E1).
  { rewrite zlen_app, Lb. pose proof (zlen_nonneg bs). lia. }
  { lia. }
  rewrite G. cbn [bind]. unfold BIT_BUF_SIZE.
  destruct (drop_ok m c1 _ _ H1) as (rest & D1 & D2 & D3 & D4 & D5); [lia|lia|].
  rewrite Lb in *. rewrite D2 by lia. cbn [bind]. rewrite D1. cbn [bind].
  rewrite value_bits_of, Z.mod_small by lia. eexists. split; [reflexivity|]. auto.
Qed.

Lemma bits_of_split a b v : 0 <= a -> 0 <= b -> 0 <= v < 2 ^ (a + b) ->
  bits_of (a + b) v = bits_of a (v / 2 ^ b) ++ bits_of b (v mod 2 ^ b).
Proof.
  intros Ha Hb Hv. assert (0 < 2 ^ b) by (apply Z.pow_pos_nonneg; lia). assert (0 < 2 ^ a) by (apply Z.pow_pos_nonneg; lia).
  rewrite Z.pow_add_r in Hv by lia.
  apply value_inj.
  - apply Nat2Z.inj. fold (zlen (bits_of (a + b) v)). fold (zlen (bits_of a (v / 2 ^ b) ++ bits_of b (v mod 2 ^ b))).
    rewrite zlen_app, !zlen_bits_of by lia. reflexivity.
  - rewrite value_app, !value_bits_of, zlen_bits_of by lia.
    rewrite Z.mod_mod by lia.
    rewrite (Z.mod_small v) by (rewrite Z.pow_add_r by lia; lia).
    rewrite (Z.mod_small (v / 2 ^ b)) by (split; [apply Z.div_pos; lia|apply Z.div_lt_upper_bound; lia]).
    pose proof (Z.div_mod v (2 ^ b)). lia.
Qed.

Lemma decode_bits_ok m n c bs v : 0 <= n <= 32 -> 0 <= v < 2 ^ n -> carries c (bits_of n v ++ bs) ->
  exists c', decode_bits m n c = Ok (v, c') /\ carries c' bs /\ c_buf c' = c_buf c /\ c_end c' = c_end c.
Proof.
  intros Hn Hv H. unfold decode_bits. destruct (Z.eqb_spec n 0) as [->|H0].
  - change (2 ^ 0) with 1 in Hv. assert (v = 0) as -> by lia. exists c. auto.
  - destruct (Z.ltb_spec 16 n) as [H16|H16].
    + assert (0 < 2 ^ 16) by lia. assert (2 ^ n = 2 ^ (n - 16) * 2 ^ 16) as E by (rewrite <- Z.pow_add_r by lia; f_equal; lia).
      assert (0 <= v / 2 ^ 16 < 2 ^ (n - 16)) as D1
        by (split; [apply Z.div_pos; lia|apply Z.div_lt_upper_bound; lia]).
      assert (0 <= v mod 2 ^ 16 < 2 ^ 16) as D2 by (apply Z.mod_pos_bound; lia).
      replace n with (n - 16 + 16) in H at 1 by lia.
      rewrite bits_of_split in H by (rewrite ?E in Hv; rewrite ?Z.pow_add_r by lia; lia). rewrite <- app_assoc in H.
      destruct (get_bits_ok m (n - 16) c _ _ ltac:(lia) D1 H) as (c1 & G1 & K1 & B1 & E1).
      rewrite G1. cbn [bind].
      destruct (get_bits_ok m 16 c1 _ _ ltac:(lia) D2 K1) as (c2 & G2 & K2 & B2 & E2).
      rewrite G2. cbn [bind].
      assert (2 ^ (n - 16) <= 2 ^ 16) by (apply Z.pow_le_mono_r; lia).
      rewrite ushl_ok by lia. cbn [bind].
      rewrite Z.mod_small by (change (2 ^ 32) with (2 ^ 16 * 2 ^ 16); nia).
      rewrite lor_add by lia. rewrite (Z.mul_comm (v / _)), <- Z.div_mod by lia.
      exists c2. split; [reflexivity|split; [exact K2|split; congruence]].
    + apply get_bits_ok; auto. lia.
Qed.
