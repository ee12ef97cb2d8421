(** * Bit fields of big-endian words, byte sweeps, permuted stores *)
From Verif Require Import Base BaseLemmas BitLemmas SpecBc SpecEtc ProofBc.

(** ** Sweeps over one byte *)
Lemma byte_eq (f g : Z -> Z) : all_below 256 (fun d => f d =? g d) = true ->
  forall d, is_byte d -> f d = g d.
Proof. intros H d Hd. apply Z.eqb_eq. exact (all_below_spec _ _ H d Hd). Qed.

Ltac bytesweep d H :=
  match goal with
  | |- ?L = ?R =>
      let f := eval pattern d in L in
      let g := eval pattern d in R in
      match f with ?F _ => match g with ?G _ =>
        exact (byte_eq F G ltac:(vm_cast_no_check (eq_refl true)) d H) end end
  end.

(** ** Fields *)
Lemma field_range w hi lo : 0 <= lo <= hi -> 0 <= field w hi lo < 2 ^ (hi - lo + 1).
Proof. intros; unfold field. apply Z.mod_pos_bound. apply Z.pow_pos_nonneg; lia. Qed.

Lemma mod_div_mod w n p q : 0 <= p -> 0 <= q -> p + q <= n ->
  (w mod 2 ^ n) / 2 ^ p mod 2 ^ q = w / 2 ^ p mod 2 ^ q.
Proof.
  intros Hp Hq Hn.
  assert (0 < 2 ^ p) by (apply Z.pow_pos_nonneg; lia).
  assert (0 < 2 ^ q) by (apply Z.pow_pos_nonneg; lia).
  assert (0 < 2 ^ n) by (apply Z.pow_pos_nonneg; lia).
  pose proof (Z.div_mod w (2 ^ n) ltac:(lia)) as E.
  rewrite E at 2.
  replace (2 ^ n) with (2 ^ p * (2 ^ q * 2 ^ (n - p - q))) at 2
    by (rewrite <- !Z.pow_add_r by lia; f_equal; lia).
  replace (2 ^ p * (2 ^ q * 2 ^ (n - p - q)) * (w / 2 ^ n) + w mod 2 ^ n)
    with (w mod 2 ^ n + (2 ^ (n - p - q) * (w / 2 ^ n)) * 2 ^ q * 2 ^ p) by ring.
  rewrite Z.div_add by lia. rewrite Z.mod_add by lia. reflexivity.
Qed.

Lemma field_split w hi mid lo : 0 <= lo <= mid -> mid <= hi ->
  field w hi lo = field w hi mid * 2 ^ (mid - lo) + w / 2 ^ lo mod 2 ^ (mid - lo).
Proof.
  intros Hl Hh. unfold field.
  replace (hi - lo + 1) with ((mid - lo) + (hi - mid + 1)) by lia.
  assert (0 < 2 ^ (mid - lo)) by (apply Z.pow_pos_nonneg; lia).
  assert (0 < 2 ^ (hi - mid + 1)) by (apply Z.pow_pos_nonneg; lia).
  rewrite Z.pow_add_r by lia. rewrite Z.rem_mul_r by lia.
  replace mid with (lo + (mid - lo)) at 5 by lia.
  rewrite div_pow_split by lia. ring.
Qed.

Lemma etc_word_le b o : etc_word b o =
  le_bytes [znth b (o + 7); znth b (o + 6); znth b (o + 5); znth b (o + 4);
            znth b (o + 3); znth b (o + 2); znth b (o + 1); znth b o].
Proof. unfold etc_word; cbn [le_bytes]. ring. Qed.

Lemma etc_word_bound b o : bytes b -> 0 <= etc_word b o < 2 ^ 64.
Proof.
  intros H. rewrite etc_word_le.
  change 64 with (8 * zlen [znth b (o + 7); znth b (o + 6); znth b (o + 5); znth b (o + 4);
            znth b (o + 3); znth b (o + 2); znth b (o + 1); znth b o]).
  apply le_bytes_bound.
  change (bytes (map (znth b) [o + 7; o + 6; o + 5; o + 4; o + 3; o + 2; o + 1; o])).
  apply bytes_map_znth; auto.
Qed.

(** A field inside one byte. *)
Lemma word_field b o hi lo k j : bytes b -> 0 <= k < 8 -> lo = 8 * k + j -> 0 <= j ->
  lo <= hi -> hi - lo + 1 + j <= 8 ->
  field (etc_word b o) hi lo = znth b (o + (7 - k)) / 2 ^ j mod 2 ^ (hi - lo + 1).
Proof.
  intros Hb Hk -> Hj Hh Hn. unfold field. rewrite etc_word_le.
  rewrite le_field; try lia.
  - do 2 f_equal. enum k Hk; try reflexivity. replace (o + (7 - 7)) with o by lia. reflexivity.
  - change (bytes (map (znth b) [o + 7; o + 6; o + 5; o + 4; o + 3; o + 2; o + 1; o])).
    apply bytes_map_znth; auto.
Qed.

Lemma word_low b o : bytes b ->
  be_bytes [znth b (o + 6); znth b (o + 7)] = etc_word b o mod 2 ^ 16.
Proof.
  intros Hb. unfold be_bytes; cbn [fold_left]. rewrite etc_word_le.
  pose proof (bytes_znth b (o + 6) Hb). pose proof (bytes_znth b (o + 7) Hb).
  cbn [le_bytes]. apply Z.mod_unique with
   (znth b (o + 5) + 256 * (znth b (o + 4) + 256 * (znth b (o + 3) + 256 * (znth b (o + 2) +
    256 * (znth b (o + 1) + 256 * (znth b o + 256 * 0)))))); change (2 ^ 16) with 65536; lia.
Qed.

Lemma word_mid b o : bytes b ->
  be_bytes [znth b (o + 4); znth b (o + 5)] = etc_word b o / 2 ^ 16 mod 2 ^ 16.
Proof.
  intros Hb. unfold be_bytes; cbn [fold_left]. rewrite etc_word_le.
  change 16 with (8 * 2) at 1. rewrite le_bytes_skip; try lia.
  2:{ change (bytes (map (znth b) [o + 7; o + 6; o + 5; o + 4; o + 3; o + 2; o + 1; o])).
      apply bytes_map_znth; auto. }
  change (Z.to_nat 2) with 2%nat. cbn [skipn le_bytes].
  pose proof (bytes_znth b (o + 4) Hb). pose proof (bytes_znth b (o + 5) Hb).
  apply Z.mod_unique with
   ((znth b (o + 3) + 256 * (znth b (o + 2) +
    256 * (znth b (o + 1) + 256 * (znth b o + 256 * 0))))); change (2 ^ 16) with 65536; lia.
Qed.

(** ** Stores in a permuted order *)
Lemma perm_loop {T} (p q : Z -> Z) (h : Z -> Z -> Z) (g : Z -> T) ob n
    (body : Z -> list Z * T -> res (list Z * T)) :
  0 <= n <= zlen ob ->
  (forall i, 0 <= i < n -> 0 <= p i < n /\ q (p i) = i) ->
  (forall t, 0 <= t < n -> 0 <= q t < n /\ p (q t) = t) ->
  (forall i l, 0 <= i < n -> zlen l = zlen ob -> znth l (p i) = znth ob (p i) ->
     body i (l, g i) = let* l' := upd l (p i) (h (p i) (znth ob (p i))) in Ok (l', g (i + 1))) ->
  for_range 0 n body (ob, g 0) =
    Ok (tab n (fun t => h t (znth ob t)) ++ skipn (Z.to_nat n) ob, g n).
Proof.
  intros Hn Hp Hq Hb.
  destruct (for_range_inv (fun i s => snd s = g i /\ zlen (fst s) = zlen ob /\
     forall t, 0 <= t < zlen ob -> znth (fst s) t =
        if (t <? n) && (q t <? i) then h t (znth ob t) else znth ob t) 0 n body (ob, g 0))
    as ((l' & s') & E & G & L & N); cbn [fst snd] in *; [lia| | |].
  - split; [auto|]. split; [auto|]. intros t Ht.
    destruct (Z.ltb_spec t n), (Z.ltb_spec (q t) 0); cbn [andb]; auto.
    destruct (Hq t); lia.
  - intros i (l & s) Hi (G & L & N); cbn [fst snd] in *. subst s.
    destruct (Hp i Hi) as [Hpi Hqp].
    assert (znth l (p i) = znth ob (p i)) as Old.
    { rewrite N by lia. rewrite Hqp. destruct (Z.ltb_spec i i); [lia|]. rewrite andb_false_r; auto. }
    rewrite Hb by auto. rewrite upd_ok by lia. cbn [bind]. eexists; split; [reflexivity|]. cbn [fst snd].
    split; [auto|]. split; [rewrite zlen_replace_nth; auto|]. intros t Ht.
    rewrite znth_replace by lia. destruct (Z.eqb_spec t (p i)) as [->|Ne].
    + rewrite Hqp. destruct (Z.ltb_spec (p i) n), (Z.ltb_spec i (i + 1)); try lia. reflexivity.
    + rewrite N by lia. destruct (Z.ltb_spec t n); cbn [andb]; auto.
      destruct (Hq t ltac:(lia)) as [Hqt Hpq].
      assert (q t <> i) by (intros EE; apply Ne; rewrite <- EE; auto).
      destruct (Z.ltb_spec (q t) i), (Z.ltb_spec (q t) (i + 1)); auto; lia.
  - rewrite E. f_equal. subst s'. f_equal.
    apply znth_ext.
    + rewrite zlen_app, zlen_tab, zlen_skipn. lia.
    + intros t Ht. rewrite L in Ht. rewrite N by lia. destruct (Z.ltb_spec t n); cbn [andb].
      * rewrite znth_tab_app by lia. destruct (Hq t ltac:(lia)). destruct (Z.ltb_spec (q t) n); auto; lia.
      * rewrite znth_app2 by (rewrite zlen_tab; lia). rewrite zlen_tab, znth_skipn by lia. f_equal; lia.
Qed.

Lemma pixel_perm i : 0 <= i < 16 -> 0 <= pixel i < 16 /\ pixel (pixel i) = i.
Proof. intros H; unfold pixel. dlia. Qed.

Lemma rev_perm i : 0 <= i < 16 -> 0 <= 15 - pixel i < 16 /\ 15 - pixel (15 - pixel i) = i.
Proof. intros H; unfold pixel. dlia. Qed.

Lemma idx2 {A} (a b : A) s : 0 <= s < 2 -> idx [a; b] s = Ok (if s =? 0 then a else b).
Proof. intros H; enum s H; reflexivity. Qed.
