(** * Little-endian numbers and bit fields *)
From Verif Require Import Base BaseLemmas.

Lemma le_bytes_nonneg l : bytes l -> 0 <= le_bytes l.
Proof. induction l; cbn [le_bytes]; intros H; [lia|]. inv H. specialize (IHl H3). unfold is_byte in *; lia. Qed.

Lemma le_bytes_bound l : bytes l -> 0 <= le_bytes l < 2 ^ (8 * zlen l).
Proof.
  induction l; intros H; [cbn; lia|]. inv H. specialize (IHl H3). unfold is_byte in *.
  rewrite zlen_cons. pose proof (zlen_nonneg l).
  replace (8 * (1 + zlen l)) with (8 + 8 * zlen l) by ring. rewrite Z.pow_add_r by lia.
  change (2 ^ 8) with 256. cbn [le_bytes]. lia.
Qed.

Lemma le_bytes_skip l k : bytes l -> 0 <= k -> le_bytes l / 2 ^ (8 * k) = le_bytes (skipn (Z.to_nat k) l).
Proof.
  intros H Hk. rewrite <- (Z2Nat.id k) at 1 by lia. generalize (Z.to_nat k) as n; clear k Hk.
  intros n; revert l H; induction n; intros l H.
  - cbn [skipn Z.of_nat]. rewrite Z.mul_0_r, Z.pow_0_r, Z.div_1_r. auto.
  - destruct l as [|b l]; [cbn [le_bytes skipn]; apply Zdiv_0_l|]. inv H.
    cbn [skipn]. rewrite <- IHn by auto.
    replace (8 * Z.of_nat (S n)) with (8 + 8 * Z.of_nat n) by lia.
    rewrite Z.pow_add_r by lia. rewrite <- Z.div_div by lia. f_equal.
    cbn [le_bytes]. change (2 ^ 8) with 256. unfold is_byte in *.
    rewrite Z.mul_comm, Z.div_add by lia. rewrite Z.div_small by lia. lia.
Qed.

Lemma div_pow_split x a b : 0 <= a -> 0 <= b -> x / 2 ^ (a + b) = x / 2 ^ a / 2 ^ b.
Proof. intros. rewrite Z.pow_add_r by lia. rewrite Z.div_div by lia. auto. Qed.

(** A field that lies inside one byte of a little-endian number. *)
Lemma le_field l k j n : bytes l -> 0 <= k -> 0 <= j -> 0 <= n -> j + n <= 8 ->
  le_bytes l / 2 ^ (8 * k + j) mod 2 ^ n = znth l k / 2 ^ j mod 2 ^ n.
Proof.
  intros H Hk Hj Hn Hjn.
  rewrite div_pow_split by lia. rewrite le_bytes_skip by auto.
  assert (znth l k = znth (skipn (Z.to_nat k) l) 0) as ->.
  { rewrite znth_skipn by lia. f_equal; lia. }
  set (l' := skipn _ l).
  destruct l' as [|b l'].
  - reflexivity.
  - cbn [le_bytes]. change (znth (b :: l') 0) with b.
    replace (b + 256 * le_bytes l') with (b + le_bytes l' * 2 ^ (8 - j - n) * 2 ^ n * 2 ^ j).
    2:{ change 256 with (2 ^ 8). replace (2 ^ 8) with (2 ^ (8 - j - n) * 2 ^ n * 2 ^ j); [ring|].
        rewrite <- !Z.pow_add_r by lia. f_equal; lia. }
    rewrite Z.div_add by lia. rewrite Z.mod_add by lia. reflexivity.
Qed.

Lemma slice_znth l a b : 0 <= a <= b -> b <= zlen l ->
  slice l a b = Ok (map (znth l) (zrange a b)).
Proof.
  intros. rewrite slice_ok by auto. f_equal.
  apply znth_ext.
  - rewrite zlen_firstn, zlen_skipn. unfold zlen at 2. rewrite map_length.
    fold (zlen (zrange a b)). rewrite zlen_zrange. lia.
  - intros i Hi. rewrite zlen_firstn, zlen_skipn in Hi.
    rewrite znth_firstn, znth_skipn by lia.
    unfold znth at 2. rewrite nth_indep with (d' := znth l 0).
    2:{ rewrite map_length. pose proof (zlen_zrange a b) as L; unfold zlen in L; lia. }
    rewrite map_nth. f_equal. pose proof (znth_zrange a b i) as L; unfold znth in L; rewrite L; lia.
Qed.

Lemma bytes_map_znth l r : bytes l -> bytes (map (znth l) r).
Proof.
  intros H. unfold bytes. rewrite Forall_forall. intros x Hx.
  apply in_map_iff in Hx as (i & <- & _). apply bytes_znth; auto.
Qed.

(** Bitwise operations digit by digit. *)
Lemma land_digit a x b y : 0 <= a < 256 -> 0 <= b < 256 ->
  Z.land (a + 256 * x) (b + 256 * y) = Z.land a b + 256 * Z.land x y.
Proof.
  intros. apply Z.bits_inj'; intros k Hk.
  assert (0 <= Z.land a b < 256).
  { split; [apply Z.land_nonneg; lia|].
    destruct (Z.eq_dec (Z.land a b) 0) as [->|]; [lia|].
    assert (0 <= Z.land a b) by (apply Z.land_nonneg; lia).
    apply Z.log2_lt_cancel. change (Z.log2 256) with 8.
    eapply Z.le_lt_trans; [apply Z.log2_land; lia|].
    destruct (Z.eq_dec a 0); [subst; cbn; lia|].
    eapply Z.le_lt_trans; [apply Z.le_min_l|]. apply Z.log2_lt_pow2; lia. }
  rewrite Z.land_spec.
  assert (forall u v, 0 <= u < 256 -> Z.testbit (u + 256 * v) k =
     if k <? 8 then Z.testbit u k else Z.testbit v (k - 8)) as T.
  { intros u v Hu. destruct (Z.ltb_spec k 8).
    - rewrite <- (Z.mod_pow2_bits_low (u + 256 * v) 8) by lia.
      change (2 ^ 8) with 256. rewrite Z.mul_comm, Z.mod_add by lia. rewrite Z.mod_small by lia. auto.
    - replace k with ((k - 8) + 8) at 1 by ring.
      rewrite <- Z.shiftr_spec by lia. rewrite Z.shiftr_div_pow2 by lia.
      change (2 ^ 8) with 256. rewrite Z.mul_comm, Z.div_add by lia.
      rewrite Z.div_small by lia. auto. }
  rewrite !T by lia. destruct (k <? 8); rewrite Z.land_spec; auto.
Qed.

Lemma lor_digit a x b y : 0 <= a < 256 -> 0 <= b < 256 ->
  Z.lor (a + 256 * x) (b + 256 * y) = Z.lor a b + 256 * Z.lor x y.
Proof.
  intros. apply Z.bits_inj'; intros k Hk.
  assert (0 <= Z.lor a b < 256).
  { assert (0 <= Z.lor a b) by (apply Z.lor_nonneg; lia). split; auto.
    destruct (Z.eq_dec (Z.lor a b) 0) as [->|]; [lia|].
    apply Z.log2_lt_cancel. change (Z.log2 256) with 8.
    rewrite Z.log2_lor by lia.
    apply Z.max_lub_lt; [destruct (Z.eq_dec a 0)|destruct (Z.eq_dec b 0)]; subst; try (cbn; lia);
    apply Z.log2_lt_pow2; lia. }
  rewrite Z.lor_spec.
  assert (forall u v, 0 <= u < 256 -> Z.testbit (u + 256 * v) k =
     if k <? 8 then Z.testbit u k else Z.testbit v (k - 8)) as T.
  { intros u v Hu. destruct (Z.ltb_spec k 8).
    - rewrite <- (Z.mod_pow2_bits_low (u + 256 * v) 8) by lia.
      change (2 ^ 8) with 256. rewrite Z.mul_comm, Z.mod_add by lia. rewrite Z.mod_small by lia. auto.
    - replace k with ((k - 8) + 8) at 1 by ring.
      rewrite <- Z.shiftr_spec by lia. rewrite Z.shiftr_div_pow2 by lia.
      change (2 ^ 8) with 256. rewrite Z.mul_comm, Z.div_add by lia.
      rewrite Z.div_small by lia. auto. }
  rewrite !T by lia. destruct (k <? 8); rewrite Z.lor_spec; auto.
Qed.

Lemma land_255 a : 0 <= a < 256 -> Z.land a 255 = a.
Proof. intros. change 255 with (2 ^ 8 - 1). rewrite land_mask by lia. apply Z.mod_small; lia. Qed.

(** Four-byte words *)
Lemma word_split p : 0 <= p < 2 ^ 32 ->
  p = le_bytes [p mod 256; p / 256 mod 256; p / 65536 mod 256; p / 16777216 mod 256].
Proof. intros; cbn [le_bytes]; dlia. Qed.

Lemma land_word a b c d a' b' c' d' :
  is_byte a -> is_byte b -> is_byte c -> is_byte d ->
  is_byte a' -> is_byte b' -> is_byte c' -> is_byte d' ->
  Z.land (le_bytes [a; b; c; d]) (le_bytes [a'; b'; c'; d']) =
  le_bytes [Z.land a a'; Z.land b b'; Z.land c c'; Z.land d d'].
Proof. unfold is_byte; intros; cbn [le_bytes]. rewrite !land_digit by lia. reflexivity. Qed.

Lemma lor_word a b c d a' b' c' d' :
  is_byte a -> is_byte b -> is_byte c -> is_byte d ->
  is_byte a' -> is_byte b' -> is_byte c' -> is_byte d' ->
  Z.lor (le_bytes [a; b; c; d]) (le_bytes [a'; b'; c'; d']) =
  le_bytes [Z.lor a a'; Z.lor b b'; Z.lor c c'; Z.lor d d'].
Proof. unfold is_byte; intros; cbn [le_bytes]. rewrite !lor_digit by lia. reflexivity. Qed.

(** Enumerate a small integer interval: turns [H : lo <= i < hi] into one goal per value. *)
Lemma range_split lo hi i : lo <= i < hi -> i = lo \/ lo + 1 <= i < hi.
Proof. lia. Qed.

Ltac enum i H :=
  match type of H with
  | ?lo <= i < ?hi =>
      let lo' := eval cbv in lo in let hi' := eval cbv in hi in
      tryif (let b := eval cbv in (Z.ltb lo' hi') in constr_eq b true)
      then (let H' := fresh in
            destruct (range_split lo hi i H) as [H'|H'];
            [ subst i
            | let n := eval cbv in (lo' + 1) in
              change (n <= i < hi) in H'; clear H; rename H' into H; enum i H ])
      else (exfalso; lia)
  end.

Lemma pow4 t : 0 <= t -> 4 ^ t = 2 ^ (2 * t).
Proof. intros; rewrite Z.pow_mul_r by lia; reflexivity. Qed.
Lemma pow8 t : 0 <= t -> 8 ^ t = 2 ^ (3 * t).
Proof. intros; rewrite Z.pow_mul_r by lia; reflexivity. Qed.
Lemma pow16 t : 0 <= t -> 16 ^ t = 2 ^ (4 * t).
Proof. intros; rewrite Z.pow_mul_r by lia; reflexivity. Qed.
