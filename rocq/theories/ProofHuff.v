(** * Proofs about the Huffman tables. *)
From Verif Require Import Base BaseLemmas ModelCrn SpecCrn ProofCrnBits.

(** ** Counting *)
Lemma sum_app a b : sum (a ++ b) = sum a + sum b.
Proof. unfold sum. induction a as [|x a IH]; cbn [app fold_right]; lia. Qed.
Lemma sum_map_add {A} (f g : A -> Z) l : sum (map (fun x => f x + g x) l) = sum (map f l) + sum (map g l).
Proof. unfold sum. induction l as [|x l IH]; cbn [map fold_right]; lia. Qed.
Lemma sum_map_ext {A} (f g : A -> Z) l : (forall x, In x l -> f x = g x) -> sum (map f l) = sum (map g l).
Proof. intros H. f_equal. apply map_ext_in. exact H. Qed.
Lemma sum_map_le {A} (f g : A -> Z) l : (forall x, In x l -> f x <= g x) -> sum (map f l) <= sum (map g l).
Proof.
  unfold sum. induction l as [|x l IH]; cbn [map fold_right]; intros H; [lia|].
  specialize (IH (fun y Hy => H y (or_intror Hy))). specialize (H x (or_introl eq_refl)). lia.
Qed.
Lemma sum_map_mul {A} (f : A -> Z) k l : sum (map (fun x => f x * k) l) = sum (map f l) * k.
Proof. unfold sum. induction l as [|x l IH]; cbn [map fold_right]; lia. Qed.
Lemma sum_map_const {A} k (l : list A) : sum (map (fun _ => k) l) = k * zlen l.
Proof.
  induction l as [|x l IH]; [change (0 = k * 0); lia|].
  change (k + sum (map (fun _ => k) l) = k * zlen (x :: l)). rewrite IH, zlen_cons. ring.
Qed.

Lemma sum_map_nonneg {A} (f : A -> Z) l : (forall x, In x l -> 0 <= f x) -> 0 <= sum (map f l).
Proof. intros H. pose proof (sum_map_le (fun _ => 0) f l H) as K. rewrite sum_map_const in K. lia. Qed.
Lemma sum_map_zero {A} (f : A -> Z) l : (forall x, In x l -> f x = 0) -> sum (map f l) = 0.
Proof. intros H. rewrite (sum_map_ext f (fun _ => 0)) by exact H. rewrite sum_map_const. lia. Qed.

Definition cnt (l : Z) (xs : list Z) : Z := sum (map (fun x => if x =? l then 1 else 0) xs).
Definition used (l : Z) (xs : list Z) : Z := sum (map (fun x => if (0 <? x) && (x <? l) then 1 else 0) xs).
Definition weight (l : Z) (xs : list Z) : Z :=
  sum (map (fun x => if (0 <? x) && (x <? l) then 2 ^ (16 - x) else 0) xs).

Lemma cnt_nonneg l xs : 0 <= cnt l xs.
Proof.
  apply sum_map_nonneg. intros x _. destruct (x =? l); lia.
Qed.
Lemma used_step l xs : 1 <= l -> used (l + 1) xs = used l xs + cnt l xs.
Proof.
  intros H. unfold used, cnt. rewrite <- sum_map_add. apply sum_map_ext. intros x _.
  destruct (Z.ltb_spec 0 x), (Z.ltb_spec x (l + 1)), (Z.ltb_spec x l), (Z.eqb_spec x l); cbn [andb]; lia.
Qed.
Lemma weight_step l xs : 1 <= l -> weight (l + 1) xs = weight l xs + cnt l xs * 2 ^ (16 - l).
Proof.
  intros H. unfold weight, cnt. rewrite <- sum_map_mul, <- sum_map_add. apply sum_map_ext. intros x _.
  destruct (Z.ltb_spec 0 x), (Z.ltb_spec x (l + 1)), (Z.ltb_spec x l), (Z.eqb_spec x l); cbn [andb]; try lia.
  subst. lia.
Qed.
Lemma used_mono l l' xs : l <= l' -> used l xs <= used l' xs.
Proof.
  intros H. apply sum_map_le. intros x _.
  destruct (Z.ltb_spec 0 x), (Z.ltb_spec x l), (Z.ltb_spec x l'); cbn [andb]; lia.
Qed.
Lemma weight_mono l l' xs : l <= l' -> weight l xs <= weight l' xs.
Proof.
  intros H. apply sum_map_le. intros x _.
  assert (0 <= 2 ^ (16 - x)) by apply Z.pow_nonneg, Z.lt_le_incl, Z.lt_0_2.
  destruct (Z.ltb_spec 0 x), (Z.ltb_spec x l), (Z.ltb_spec x l'); cbn [andb]; lia.
Qed.
Lemma used_le l xs : used l xs <= zlen xs.
Proof.
  replace (zlen xs) with (sum (map (fun _ : Z => 1) xs)) by (rewrite sum_map_const; lia).
  apply sum_map_le. intros x _. destruct ((0 <? x) && (x <? l)); lia.
Qed.
Lemma used_1 xs : used 1 xs = 0.
Proof.
  apply sum_map_zero. intros x _. destruct (Z.ltb_spec 0 x), (Z.ltb_spec x 1); cbn [andb]; lia.
Qed.
Lemma weight_1 xs : weight 1 xs = 0.
Proof.
  apply sum_map_zero. intros x _. destruct (Z.ltb_spec 0 x), (Z.ltb_spec x 1); cbn [andb]; lia.
Qed.
Lemma weight_all xs : Forall (fun l => 0 <= l <= 16) xs -> weight 17 xs = sum (map share xs).
Proof.
  intros H. apply sum_map_ext. intros x Hx. rewrite Forall_forall in H. specialize (H x Hx). unfold share.
  destruct (Z.ltb_spec 0 x), (Z.ltb_spec x 17), (Z.eqb_spec x 0); cbn [andb]; try lia.
Qed.
Lemma cnt_app l a b : cnt l (a ++ b) = cnt l a + cnt l b.
Proof. unfold cnt. rewrite map_app. apply sum_app. Qed.
Lemma cnt_one l x : cnt l [x] = if x =? l then 1 else 0.
Proof. unfold cnt, sum. cbn [map fold_right]. lia. Qed.

Definition rank (xs : list Z) (s : Z) : Z := cnt (znth xs s) (firstn (Z.to_nat s) xs).

Lemma firstn_snoc (xs : list Z) s : 0 <= s < zlen xs ->
  firstn (Z.to_nat (s + 1)) xs = firstn (Z.to_nat s) xs ++ [znth xs s].
Proof.
  intros H. unfold zlen in H. rewrite Z2Nat.inj_add by lia. change (Z.to_nat 1) with 1%nat.
  rewrite <- (firstn_skipn (Z.to_nat s) xs) at 1. rewrite firstn_app, firstn_firstn.
  rewrite firstn_length. replace (Init.Nat.min (Z.to_nat s + 1) (Z.to_nat s)) with (Z.to_nat s) by lia.
  f_equal. replace (Z.to_nat s + 1 - Init.Nat.min (Z.to_nat s) (length xs))%nat with 1%nat by lia.
  rewrite (skipn_step xs s) by (unfold zlen; lia). reflexivity.
Qed.
Lemma cnt_firstn_le l xs n : cnt l (firstn n xs) <= cnt l xs.
Proof. rewrite <- (firstn_skipn n xs) at 2. rewrite cnt_app. pose proof (cnt_nonneg l (skipn n xs)). lia. Qed.
Lemma cnt_firstn_mono l xs n n' : (n <= n')%nat -> cnt l (firstn n xs) <= cnt l (firstn n' xs).
Proof.
  intros H. replace (firstn n xs) with (firstn n (firstn n' xs)) by (rewrite firstn_firstn; f_equal; lia).
  apply cnt_firstn_le.
Qed.
Lemma cnt_firstn_snoc l xs s : 0 <= s < zlen xs ->
  cnt l (firstn (Z.to_nat (s + 1)) xs) = cnt l (firstn (Z.to_nat s) xs) + if znth xs s =? l then 1 else 0.
Proof. intros. rewrite firstn_snoc by lia. rewrite cnt_app, cnt_one. reflexivity. Qed.
Lemma rank_lt xs s : 0 <= s < zlen xs -> 0 <= rank xs s < cnt (znth xs s) xs.
Proof.
  intros H. unfold rank. split; [apply cnt_nonneg|].
  apply Z.lt_le_trans with (cnt (znth xs s) (firstn (Z.to_nat (s + 1)) xs)); [|apply cnt_firstn_le].
  rewrite cnt_firstn_snoc by lia. rewrite Z.eqb_refl. lia.
Qed.
Lemma rank_mono xs s t : 0 <= s < t -> t < zlen xs -> znth xs s = znth xs t -> rank xs s < rank xs t.
Proof.
  intros H H' E. unfold rank. rewrite E.
  apply Z.lt_le_trans with (cnt (znth xs t) (firstn (Z.to_nat (s + 1)) xs)); [|apply cnt_firstn_mono; lia].
  rewrite cnt_firstn_snoc by lia. rewrite E, Z.eqb_refl. lia.
Qed.
Lemma rank_ex l r xs : 0 <= r < cnt l xs -> exists s, 0 <= s < zlen xs /\ znth xs s = l /\ rank xs s = r.
Proof.
  intros H.
  assert (forall n, (n <= length xs)%nat -> r < cnt l (firstn n xs) ->
    exists s, 0 <= s < Z.of_nat n /\ znth xs s = l /\ rank xs s = r) as K.
  { induction n as [|n IH]; intros Hn Hr; [cbn in Hr; lia|].
    destruct (Z.lt_ge_cases r (cnt l (firstn n xs))) as [C|C].
    - destruct (IH ltac:(lia) C) as (s & ? & ?). exists s. split; [lia|auto].
    - pose proof (cnt_firstn_snoc l xs (Z.of_nat n) ltac:(unfold zlen; lia)) as E.
      replace (Z.to_nat (Z.of_nat n + 1)) with (S n) in E by lia. rewrite Nat2Z.id in E.
      destruct (Z.eqb_spec (znth xs (Z.of_nat n)) l) as [F|F]; [|lia].
      exists (Z.of_nat n). split; [lia|split; [exact F|]]. unfold rank. rewrite Nat2Z.id, F. lia. }
  destruct (K (length xs)) as (s & A & B); [lia|rewrite firstn_all; lia|]. exists s. unfold zlen. split; [lia|auto].
Qed.
Lemma cnt_pos xs s : 0 <= s < zlen xs -> 0 < cnt (znth xs s) xs.
Proof. intros H. pose proof (rank_lt xs s H). lia. Qed.

(** The specified first word in terms of the counts. *)
Lemma sum_zrange_znth (h : Z -> Z) xs : sum (map (fun t => h (znth xs t)) (zrange 0 (zlen xs))) = sum (map h xs).
Proof.
  f_equal. transitivity (map h (tab (zlen xs) (znth xs))); [unfold tab; rewrite map_map; reflexivity|].
  rewrite <- zlist_as_tab. reflexivity.
Qed.
Lemma first_word_eq xs s : Forall (fun l => 0 <= l <= 16) xs -> coded xs s ->
  first_word xs s = weight (znth xs s) xs + rank xs s * 2 ^ (16 - znth xs s).
Proof.
  intros F [Hs Hc]. unfold first_word.
  assert (forall t, 0 <= t < zlen xs -> 0 <= znth xs t <= 16) as R.
  { intros t Ht. rewrite Forall_forall in F. apply F. unfold znth. apply nth_In. unfold zlen in Ht. lia. }
  rewrite (sum_map_ext _ (fun t => (if (0 <? znth xs t) && (znth xs t <? znth xs s) then 2 ^ (16 - znth xs t) else 0) +
     (if (t <? s) && (znth xs t =? znth xs s) then 1 else 0) * 2 ^ (16 - znth xs s))).
  - rewrite sum_map_add, sum_map_mul. f_equal; [|f_equal].
    + apply (sum_zrange_znth (fun x => if (0 <? x) && (x <? znth xs s) then 2 ^ (16 - x) else 0)).
    + unfold rank, cnt.
      assert (forall n, (n <= length xs)%nat ->
        sum (map (fun t => if (t <? s) && (znth xs t =? znth xs s) then 1 else 0) (zrange 0 (Z.of_nat n))) =
        cnt (znth xs s) (firstn (Nat.min n (Z.to_nat s)) xs)) as K.
      { induction n as [|n IH]; intros Hn; [reflexivity|].
        rewrite Nat2Z.inj_succ. unfold Z.succ. rewrite zrange_snoc by lia.
        rewrite map_app, sum_app, IH by lia. cbn [map]. unfold sum at 1. cbn [fold_right]. rewrite Z.add_0_r.
        destruct (Z.ltb_spec (Z.of_nat n) s); cbn [andb].
        - replace (Nat.min (S n) (Z.to_nat s)) with (Z.to_nat (Z.of_nat n + 1)) by lia.
          rewrite cnt_firstn_snoc by (unfold zlen; lia). do 2 f_equal. f_equal. lia.
        - rewrite Z.add_0_r. do 2 f_equal. lia. }
      unfold zlen. rewrite (K (length xs)) by lia. unfold cnt. do 3 f_equal. unfold zlen in Hs. lia.
  - intros t Ht. apply in_zrange in Ht. specialize (R t Ht). unfold earlier, share.
    destruct (Z.ltb_spec (znth xs t) (znth xs s)), (Z.eqb_spec (znth xs t) (znth xs s)) as [E|E], (Z.ltb_spec t s),
      (Z.ltb_spec 0 (znth xs t)), (Z.eqb_spec (znth xs t) 0); cbn [orb andb]; try lia.
    rewrite E. lia.
Qed.

(** ** Arrays given by a function *)
Lemma idx_tab n f i : 0 <= i < n -> idx (tab n f) i = Ok (f i).
Proof. intros H. rewrite idx_ok by (rewrite zlen_tab; lia). rewrite znth_tab by lia. reflexivity. Qed.
Lemma upd_tab_if n f i v : 0 <= i < n -> upd (tab n f) i v = Ok (tab n (fun j => if j =? i then v else f j)).
Proof.
  intros H. rewrite upd_ok by (rewrite zlen_tab; lia).
  enough (replace_nth (Z.to_nat i) v (tab n f) = tab n (fun j => if j =? i then v else f j)) as -> by reflexivity.
  apply znth_ext.
  - rewrite zlen_replace_nth, !zlen_tab. reflexivity.
  - intros k. rewrite zlen_replace_nth, zlen_tab. intros Hk.
    rewrite znth_replace by (rewrite ?zlen_tab; lia). rewrite !znth_tab by lia.
    destruct (Z.eqb_spec k i), (Z.eqb_spec i k); congruence || reflexivity.
Qed.
Lemma repeat_tab (x n : Z) : repeat x (Z.to_nat n) = tab n (fun _ => x).
Proof.
  unfold tab, zrange. rewrite Z.sub_0_r. generalize 0 as a. induction (Z.to_nat n) as [|k IH]; intros a; [reflexivity|].
  cbn [repeat zseq map]. f_equal. apply IH.
Qed.
Lemma tab_eq n f g : (forall i, 0 <= i < n -> f i = g i) -> tab n f = tab n g.
Proof. apply tab_ext. Qed.

(** ** Construction of the tables *)
Section Tables.
Context (m : build) (xs : list Z).
Hypothesis Hlen : 1 <= zlen xs <= 8192.
Hypothesis HF : Forall (fun l => 0 <= l <= 16) xs.

Lemma size_range s : 0 <= s < zlen xs -> 0 <= znth xs s <= 16.
Proof.
  intros Hs. rewrite Forall_forall in HF. apply HF. unfold znth. apply nth_In. unfold zlen in Hs. lia.
Qed.
Lemma cnt_le l : 0 <= cnt l xs <= 8192.
Proof.
  split; [apply cnt_nonneg|]. apply Z.le_trans with (zlen xs); [|lia].
  replace (zlen xs) with (sum (map (fun _ : Z => 1) xs)) by (rewrite sum_map_const; lia).
  apply sum_map_le. intros x _. destruct (x =? l); lia.
Qed.
Lemma used_range l : 0 <= used l xs <= 8192.
Proof.
  split; [|pose proof (used_le l xs); lia]. apply sum_map_nonneg. intros x _. destruct (_ && _); lia.
Qed.
Lemma weight_range l : l <= 17 -> 0 <= weight l xs <= 2 ^ 28.
Proof.
  intros H. split.
  - apply sum_map_nonneg. intros x _.
    assert (0 <= 2 ^ (16 - x)) by apply Z.pow_nonneg, Z.lt_le_incl, Z.lt_0_2. destruct (_ && _); lia.
  - apply Z.le_trans with (sum (map (fun _ : Z => 2 ^ 15) xs)); [|rewrite sum_map_const; lia].
    apply sum_map_le. intros x _. destruct (Z.ltb_spec 0 x), (Z.ltb_spec x l); cbn [andb]; try lia.
    apply Z.pow_le_mono_r; lia.
Qed.

Lemma count_codes_ok : count_codes m (zlen xs) xs = Ok (tab 17 (fun c => if c =? 0 then 0 else cnt c xs)).
Proof.
  unfold count_codes. replace (firstn (Z.to_nat (zlen xs)) xs) with xs
    by (unfold zlen; rewrite Nat2Z.id, firstn_all; reflexivity).
  change (repeat 0 17) with (tab 17 (fun _ => 0)).
  assert (forall ys f, Forall (fun l => 0 <= l <= 16) ys -> (forall c, 0 <= f c /\ f c + zlen ys <= 8192) ->
    for_list ys (fun c num_codes => if c =? 0 then Ok num_codes else
       let* n := idx num_codes c in let* n' := ua m 32 (n + 1) in upd num_codes c n') (tab 17 f) =
    Ok (tab 17 (fun c => f c + if c =? 0 then 0 else cnt c ys))) as K.
  { induction ys as [|y ys IH]; intros f Fy R.
    - cbn [for_list]. f_equal. apply tab_ext. intros i _. change (cnt i []) with 0. destruct (i =? 0); lia.
    - cbn [for_list]. inversion Fy as [|? ? Hy Fy']; subst.
      destruct (Z.eqb_spec y 0) as [->|Hy0].
      + cbn [bind]. rewrite IH; [|exact Fy'|intros c; specialize (R c); rewrite zlen_cons in R; lia].
        enough (forall a b : list Z, a = b -> @Ok (list Z) a = Ok b) as E; [apply E|intros ? ? ->; reflexivity].
        apply tab_ext. intros i Hi. unfold cnt. cbn [map]. unfold sum at 2. cbn [fold_right]. fold (sum (map (fun x => if x =? i then 1 else 0) ys)).
        destruct (Z.eqb_spec i 0), (Z.eqb_spec 0 i); lia.
      + rewrite idx_tab by lia. cbn [bind]. specialize (R y) as Ry. rewrite zlen_cons in Ry. pose proof (zlen_nonneg ys).
        rewrite ua_ok by lia. cbn [bind]. rewrite upd_tab_if by lia. cbn [bind].
        rewrite IH; [|exact Fy'|intros c; specialize (R c); rewrite zlen_cons in R; destruct (c =? y) eqn:Ec; [apply Z.eqb_eq in Ec; subst|]; lia].
        enough (forall a b : list Z, a = b -> @Ok (list Z) a = Ok b) as E; [apply E|intros ? ? ->; reflexivity].
        apply tab_ext. intros i Hi. unfold cnt. cbn [map]. unfold sum at 2. cbn [fold_right]. fold (sum (map (fun x => if x =? i then 1 else 0) ys)).
        destruct (Z.eqb_spec i y), (Z.eqb_spec i 0), (Z.eqb_spec y i); subst; lia. }
  rewrite K; [reflexivity|exact HF|]. intros c. lia.
Qed.

Definition nc : list Z := tab 17 (fun c => if c =? 0 then 0 else cnt c xs).
Lemma idx_nc i : 1 <= i <= 16 -> idx nc i = Ok (cnt i xs).
Proof. intros H. unfold nc. rewrite idx_tab by lia. destruct (Z.eqb_spec i 0); [lia|reflexivity]. Qed.

(** First code of length [i], as a number of [i] bits. *)
Definition low (i : Z) : Z := weight i xs * 2 ^ i / 2 ^ 16.
Lemma weight_divide i : 1 <= i <= 17 -> (2 ^ (17 - i) | weight i xs).
Proof.
  intros Hi. unfold weight. assert (forall l, (2 ^ (17 - i) | sum (map (fun x => if (0 <? x) && (x <? i) then 2 ^ (16 - x) else 0) l))) as K.
  { induction l as [|x l' IH]; [exists 0; reflexivity|]. cbn [map]. unfold sum. cbn [fold_right].
    apply Z.divide_add_r; [|exact IH].
    destruct (Z.ltb_spec 0 x), (Z.ltb_spec x i); cbn [andb]; try (exists 0; reflexivity).
    exists (2 ^ (i - 1 - x)). rewrite <- Z.pow_add_r by lia. f_equal. lia. }
  apply K.
Qed.
Lemma low_eq i : 1 <= i <= 17 -> low i * 2 ^ 16 = weight i xs * 2 ^ i.
Proof.
  intros Hi. unfold low. destruct (weight_divide i Hi) as [k E]. rewrite E.
  rewrite <- Z.mul_assoc, <- Z.pow_add_r by lia. replace (17 - i + i) with 17 by lia.
  change (2 ^ 17) with (2 * 2 ^ 16). rewrite Z.mul_assoc, Z.div_mul by lia. reflexivity.
Qed.
Lemma low_weight i : 1 <= i <= 16 -> low i * 2 ^ (16 - i) = weight i xs.
Proof.
  intros Hi. pose proof (low_eq i ltac:(lia)) as E.
  assert (2 ^ 16 = 2 ^ (16 - i) * 2 ^ i) as E2 by (rewrite <- Z.pow_add_r by lia; f_equal; lia).
  rewrite E2, Z.mul_assoc in E. apply Z.mul_cancel_r in E; [exact E|]. pose proof (Z.pow_pos_nonneg 2 i). lia.
Qed.
Lemma low_step i : 1 <= i <= 16 -> low (i + 1) = 2 * (low i + cnt i xs).
Proof.
  intros Hi. pose proof (low_eq i ltac:(lia)) as A. pose proof (low_eq (i + 1) ltac:(lia)) as B.
  rewrite weight_step in B by lia. rewrite (Z.pow_add_r 2 i 1) in B by lia.
  assert (2 ^ 16 = 2 ^ (16 - i) * 2 ^ i) as E2 by (rewrite <- Z.pow_add_r by lia; f_equal; lia).
  assert (cnt i xs * 2 ^ (16 - i) * 2 ^ i = cnt i xs * 2 ^ 16) as E3 by (rewrite E2; ring).
  nia.
Qed.
Lemma low_range i : 1 <= i <= 17 -> 0 <= low i <= 2 ^ 29.
Proof.
  intros Hi. unfold low. pose proof (weight_range i ltac:(lia)) as W.
  assert (0 < 2 ^ i <= 2 ^ 17) by (split; [apply Z.pow_pos_nonneg; lia|apply Z.pow_le_mono_r; lia]).
  split; [apply Z.div_pos; nia|]. apply Z.div_le_upper_bound; nia.
Qed.
Lemma low_top i : 1 <= i <= 16 -> (low i + cnt i xs) * 2 ^ (16 - i) = weight (i + 1) xs.
Proof. intros Hi. rewrite weight_step, Z.mul_add_distr_r, low_weight by lia. reflexivity. Qed.

(** Code lengths in use. *)
Definition has (l : Z) : bool := negb (cnt l xs =? 0).
Lemma has_true l : has l = true <-> 0 < cnt l xs.
Proof. unfold has. pose proof (cnt_nonneg l xs). destruct (Z.eqb_spec (cnt l xs) 0); cbn; split; intros; try lia; discriminate || reflexivity. Qed.
Lemma has_size s : 0 <= s < zlen xs -> has (znth xs s) = true.
Proof. intros H. apply has_true, cnt_pos, H. Qed.

Definition lens_at (i : Z) (s : lens) : Prop :=
  l_max_codes s = tab 17 (fun j => if (j + 1 <? i) && has (j + 1) then weight (j + 2) xs else 0) /\
  l_val_ptrs s = tab 17 (fun j => if (j + 1 <? i) && has (j + 1) then used (j + 1) xs else 0) /\
  l_min_codes s = tab 16 (fun j => if (j + 1 <? i) && has (j + 1) then low (j + 1) else 0) /\
  l_sorted_positions s = tab 17 (fun j => if (1 <=? j) && (j <? i) && has j then used j xs else 0) /\
  l_cur_code s = low i /\ l_total_used s = used i xs /\
  (0 <= l_max_size s < i /\ forall j, 1 <= j < i -> has j = true -> j <= l_max_size s) /\
  ((l_min_size s = 2 ^ 32 - 1 \/ 1 <= l_min_size s < i /\ has (l_min_size s) = true) /\ forall j, 1 <= j < i -> has j = true -> l_min_size s <= j).

Lemma length_loop_ok : exists s, length_loop m nc = Ok s /\ lens_at 17 s.
Proof.
  unfold length_loop. apply for_range_inv; [lia| |].
  - unfold lens_at. cbn [l_max_codes l_val_ptrs l_min_codes l_sorted_positions l_cur_code l_total_used l_max_size l_min_size].
    change (repeat 0 17) with (tab 17 (fun _ => 0)). change (repeat 0 16) with (tab 16 (fun _ => 0)).
    split; [apply tab_ext; intros j Hj; destruct (Z.ltb_spec (j + 1) 1); [lia|reflexivity]|].
    split; [apply tab_ext; intros j Hj; destruct (Z.ltb_spec (j + 1) 1); [lia|reflexivity]|].
    split; [apply tab_ext; intros j Hj; destruct (Z.ltb_spec (j + 1) 1); [lia|reflexivity]|].
    split; [apply tab_ext; intros j Hj; destruct (Z.leb_spec 1 j), (Z.ltb_spec j 1); try lia; reflexivity|].
    split; [unfold low; rewrite weight_1; reflexivity|].
    split; [rewrite used_1; reflexivity|].
    split; (split; [lia|intros; lia]).
  - intros i s Hi (M & V & N & P & C & U & (X1 & X2) & (Y1 & Y2)).
    unfold length_step. rewrite idx_nc by lia. cbn [bind].
    pose proof (cnt_le i) as Rc. pose proof (low_range i ltac:(lia)) as Rl. pose proof (low_range (i + 1) ltac:(lia)) as Rl'.
    pose proof (low_step i ltac:(lia)) as Ls. pose proof (used_range i) as Ru. pose proof (used_step i xs ltac:(lia)) as Us.
    assert (0 < 2 ^ (16 - i)) as Hp by (apply Z.pow_pos_nonneg; lia).
    destruct (Z.eqb_spec (cnt i xs) 0) as [Z0|Z0].
    + assert (has i = false) as Hh by (unfold has; rewrite Z0; reflexivity).
      rewrite M, upd_tab_if by lia. cbn [bind l_cur_code].
      rewrite C, ushl_ok by lia. cbn [bind l_max_codes l_val_ptrs l_min_codes l_sorted_positions l_cur_code l_total_used l_max_size l_min_size].
      eexists. split; [reflexivity|]. unfold lens_at.
      cbn [l_max_codes l_val_ptrs l_min_codes l_sorted_positions l_cur_code l_total_used l_max_size l_min_size].
      assert (forall j, (j + 1 <? i + 1) && has (j + 1) = (j + 1 <? i) && has (j + 1)) as K.
      { intros j. destruct (Z.ltb_spec (j + 1) (i + 1)), (Z.ltb_spec (j + 1) i); try lia; cbn [andb]; auto.
        replace (j + 1) with i by lia. rewrite Hh. reflexivity. }
      split; [apply tab_ext; intros j Hj; rewrite K; destruct (Z.eqb_spec j (i - 1)) as [->|]; [|reflexivity]; 
        replace (i - 1 + 1) with i by lia; rewrite Z.ltb_irrefl; reflexivity|].
      split; [rewrite V; apply tab_ext; intros j Hj; rewrite K; reflexivity|].
      split; [rewrite N; apply tab_ext; intros j Hj; rewrite K; reflexivity|].
      split; [rewrite P; apply tab_ext; intros j Hj; specialize (K (j - 1)); replace (j - 1 + 1) with j in K by lia;
        rewrite <- !andb_assoc, K; reflexivity|].
      split; [rewrite Z.mod_small by lia; lia|].
      split; [lia|].
      split; (split; [first [lia | destruct Y1 as [Y1|[Y1 Y1']]; [left; exact Y1|right; split; [lia|exact Y1']]]|]); intros j Hj Hhj; (assert (j = i \/ j < i) as [->|] by lia; [congruence|]).
      * apply X2; auto; lia.
      * apply Y2; auto; lia.
    + assert (has i = true) as Hh by (apply has_true; lia).
      rewrite N, C. rewrite upd_tab_if by lia. cbn [bind].
      rewrite ua_ok by lia. cbn [bind]. rewrite ua_ok by lia. cbn [bind].
      pose proof (low_top i ltac:(lia)) as Lt. pose proof (weight_range (i + 1) ltac:(lia)) as Rw.
      assert (2 ^ (16 - i) <= 2 ^ 16) as Hp' by (apply Z.pow_le_mono_r; lia).
      rewrite ushl_ok by lia. cbn [bind]. rewrite Z.mod_small by nia.
      rewrite ushl_ok by lia. cbn [bind]. rewrite (Z.mul_1_l (2 ^ (16 - i))), (Z.mod_small (2 ^ (16 - i))) by lia.
      rewrite ua_ok by lia. cbn [bind]. rewrite lor_add by lia.
      rewrite ua_ok by nia. cbn [bind].
      replace (1 + ((low i + cnt i xs - 1) * 2 ^ (16 - i) + (2 ^ (16 - i) - 1))) with (weight (i + 1) xs) by nia.
      rewrite M, upd_tab_if by lia. cbn [bind].
      rewrite V, upd_tab_if by lia. cbn [bind].
      rewrite P, upd_tab_if by lia. cbn [bind].
      rewrite U, ua_ok by lia. cbn [bind l_cur_code].
      rewrite ushl_ok by lia. cbn [bind l_max_codes l_val_ptrs l_min_codes l_sorted_positions l_cur_code l_total_used l_max_size l_min_size].
      eexists. split; [reflexivity|]. unfold lens_at.
      cbn [l_max_codes l_val_ptrs l_min_codes l_sorted_positions l_cur_code l_total_used l_max_size l_min_size].
      assert (forall j, j <> i - 1 -> (j + 1 <? i + 1) && has (j + 1) = (j + 1 <? i) && has (j + 1)) as K.
      { intros j Hj. destruct (Z.ltb_spec (j + 1) (i + 1)), (Z.ltb_spec (j + 1) i); try lia; cbn [andb]; auto. }
      assert ((i - 1 + 1 <? i + 1) && has (i - 1 + 1) = true) as K'.
      { replace (i - 1 + 1) with i by lia. rewrite Hh. destruct (Z.ltb_spec i (i + 1)); [reflexivity|lia]. }
      split; [apply tab_ext; intros j Hj; destruct (Z.eqb_spec j (i - 1)) as [->|]; [rewrite K'; f_equal; lia|rewrite K by lia; reflexivity]|].
      split; [apply tab_ext; intros j Hj; destruct (Z.eqb_spec j (i - 1)) as [->|]; [rewrite K'|rewrite K by lia; reflexivity]|].
      { unfold swrap. rewrite Z.mod_small by lia. destruct (Z.ltb_spec (used i xs) (2 ^ (32 - 1))); [f_equal; lia|lia]. }
      split; [apply tab_ext; intros j Hj; destruct (Z.eqb_spec j (i - 1)) as [->|]; [rewrite K'; f_equal; lia|rewrite K by lia; reflexivity]|].
      split; [apply tab_ext; intros j Hj; destruct (Z.eqb_spec j i) as [->|]|].
      { replace (1 <=? i) with true by (symmetry; apply Z.leb_le; lia). replace (i <? i + 1) with true by (symmetry; apply Z.ltb_lt; lia).
        rewrite Hh. reflexivity. }
      { specialize (K (j - 1) ltac:(lia)). replace (j - 1 + 1) with j in K by lia. rewrite <- !andb_assoc, K. reflexivity. }
      split; [rewrite Z.mod_small by lia; lia|].
      split; [lia|].
      split; (split; [try lia|]).
      2: { right. split; [lia|]. destruct (Z.min_spec (l_min_size s) i) as [[Lm ->]|[_ ->]]; [destruct Y1 as [Y1|[_ Y1]]; [lia|exact Y1]|exact Hh]. }
      all: intros j Hj Hhj.
      * destruct (Z.eq_dec j i); [lia|]. specialize (X2 j ltac:(lia) Hhj). lia.
      * destruct (Z.eq_dec j i); [lia|]. specialize (Y2 j ltac:(lia) Hhj). lia.
Qed.

(** Place of a symbol in the sorted order. *)
Definition place (s : Z) : Z := used (znth xs s) xs + rank xs s.
Lemma place_range s : coded xs s -> 0 <= place s < used 17 xs.
Proof.
  intros [Hs Hc]. unfold place. pose proof (size_range s Hs). pose proof (rank_lt xs s Hs) as R.
  pose proof (used_step (znth xs s) xs ltac:(lia)) as U. pose proof (used_mono (znth xs s + 1) 17 xs ltac:(lia)).
  pose proof (used_range (znth xs s)). lia.
Qed.
Lemma place_inj s t : coded xs s -> coded xs t -> place s = place t -> s = t.
Proof.
  intros [Hs Hc] [Ht Hd] E. unfold place in E.
  pose proof (size_range s Hs). pose proof (rank_lt xs s Hs) as R.
  pose proof (used_step (znth xs s) xs ltac:(lia)) as U.
  pose proof (size_range t Ht). pose proof (rank_lt xs t Ht) as R'.
  pose proof (used_step (znth xs t) xs ltac:(lia)) as U'.
  destruct (Z.lt_trichotomy (znth xs s) (znth xs t)) as [L|[L|L]].
  - pose proof (used_mono (znth xs s + 1) (znth xs t) xs ltac:(lia)). lia.
  - rewrite L in E. destruct (Z.lt_trichotomy s t) as [K|[K|K]]; [|exact K|].
    + pose proof (rank_mono xs s t ltac:(lia) ltac:(lia) L). lia.
    + pose proof (rank_mono xs t s ltac:(lia) ltac:(lia) ltac:(lia)). lia.
  - pose proof (used_mono (znth xs t + 1) (znth xs s) xs ltac:(lia)). lia.
Qed.

Lemma fresh_sorted_len : used 17 xs <= zlen (fresh_sorted (zlen xs) (used 17 xs)).
Proof.
  unfold fresh_sorted. pose proof (used_range 17). pose proof (used_le 17 xs).
  destruct (Z.ltb_spec 0 (used 17 xs)) as [P|P]; [|rewrite zlen_nil; lia].
  rewrite repeat_tab, zlen_tab. destruct (is_pow2 (used 17 xs)); [lia|].
  unfold next_pow2. pose proof (Z.log2_up_spec (used 17 xs)) as L.
  destruct (Z.eq_dec (used 17 xs) 1) as [->|]; [cbn; lia|]. specialize (L ltac:(lia)). lia.
Qed.

Lemma sort_symbols_ok s : lens_at 17 s ->
  exists sp sorted, sort_symbols m (zlen xs) xs nc (l_total_used s) (l_sorted_positions s)
      (fresh_sorted (zlen xs) (l_total_used s)) = Ok (sp, sorted) /\
    used 17 xs <= zlen sorted /\ forall t, coded xs t -> znth sorted (place t) = t.
Proof.
  intros (_ & _ & _ & P & _ & U & _). rewrite P, U. unfold sort_symbols. rewrite Z.min_id.
  pose proof (zlen_nonneg xs) as Hn. pose proof (used_range 17) as Ru.
  edestruct (for_range_inv (fun i (st : list Z * list Z) =>
    fst st = tab 17 (fun j => if (1 <=? j) && (j <? 17) && has j then used j xs + cnt j (firstn (Z.to_nat i) xs) else 0) /\
    used 17 xs <= zlen (snd st) /\
    forall t, 0 <= t < i -> znth xs t <> 0 -> znth (snd st) (place t) = t) 0 (zlen xs)) as ((sp & sorted) & E & I1 & I2 & I3);
    [exact Hn| | |exists sp, sorted; split; [exact E|split; [exact I2|]]].
  - cbn [fst snd]. split; [|split; [apply fresh_sorted_len|intros; lia]].
    apply tab_ext. intros j _. change (cnt j (firstn (Z.to_nat 0) xs)) with 0. rewrite Z.add_0_r. reflexivity.
  - intros i (sp & sorted) Hi (I1 & I2 & I3). cbn [fst snd] in I1, I2, I3.
    rewrite idx_ok by lia. cbn [bind]. pose proof (size_range i ltac:(lia)) as Rs.
    destruct (Z.eqb_spec (znth xs i) 0) as [Z0|Z0].
    + exists (sp, sorted). split; [reflexivity|]. cbn [fst snd]. split; [|split; [exact I2|]].
      * rewrite I1. apply tab_ext. intros j Hj. rewrite cnt_firstn_snoc by lia.
        destruct (Z.leb_spec 1 j); cbn [andb]; [|reflexivity].
        destruct (Z.eqb_spec (znth xs i) j); [lia|]. destruct ((j <? 17) && has j); lia.
      * intros t Ht Hz. destruct (Z.eq_dec t i) as [->|]; [congruence|]. apply I3; [lia|exact Hz].
    + rewrite idx_nc by lia. cbn [bind]. pose proof (cnt_pos xs i ltac:(lia)) as Cp.
      destruct (Z.eqb_spec (cnt (znth xs i) xs) 0); [lia|].
      rewrite I1. rewrite idx_tab by lia. cbn [bind].
      assert ((1 <=? znth xs i) && (znth xs i <? 17) && has (znth xs i) = true) as Hh.
      { rewrite has_size by lia. destruct (Z.leb_spec 1 (znth xs i)), (Z.ltb_spec (znth xs i) 17); try lia; reflexivity. }
      rewrite Hh. fold (rank xs i). fold (place i).
      assert (coded xs i) as Hc by (split; [lia|exact Z0]).
      pose proof (place_range i Hc) as Rp.
      rewrite ua_ok by lia. cbn [bind]. rewrite upd_tab_if by lia. cbn [bind].
      destruct (Z.leb_spec (used 17 xs) (place i)); [lia|].
      rewrite upd_ok by lia. cbn [bind]. eexists. split; [reflexivity|]. cbn [fst snd]. split; [|split].
      * apply tab_ext. intros j Hj. rewrite cnt_firstn_snoc by lia.
        destruct (Z.eqb_spec j (znth xs i)) as [->|Hne].
        -- rewrite Hh, Z.eqb_refl. unfold place, rank. lia.
        -- destruct (Z.eqb_spec (znth xs i) j); [congruence|]. rewrite Z.add_0_r. reflexivity.
      * rewrite zlen_replace_nth. exact I2.
      * intros t Ht Hz. destruct (Z.eq_dec t i) as [->|Hne].
        -- rewrite znth_replace by lia. rewrite Z.eqb_refl. unfold u16. apply Z.mod_small. lia.
        -- assert (coded xs t) as Hct by (split; [lia|exact Hz]).
           pose proof (place_range t Hct). rewrite znth_replace by lia.
           destruct (Z.eqb_spec (place t) (place i)) as [E|E].
           ++ apply place_inj in E; auto. congruence.
           ++ apply I3; [lia|exact Hz].
  - intros t [Ht Hz]. apply I3; auto.
Qed.

(** The interval of 16-bit words starting with the code of [s]. *)
Definition starts (T s : Z) : Prop :=
  coded xs s /\ first_word xs s <= T < first_word xs s + 2 ^ (16 - znth xs s).
Lemma first_low s : coded xs s -> first_word xs s = (low (znth xs s) + rank xs s) * 2 ^ (16 - znth xs s).
Proof.
  intros Hc. rewrite first_word_eq by auto. destruct Hc as [Hs Hc]. pose proof (size_range s Hs).
  rewrite <- low_weight by lia. ring.
Qed.
Lemma starts_range T s : starts T s -> weight (znth xs s) xs <= T < weight (znth xs s + 1) xs.
Proof.
  intros [Hc H]. rewrite first_word_eq in H by auto. destruct Hc as [Hs Hc]. pose proof (size_range s Hs).
  pose proof (rank_lt xs s Hs). rewrite weight_step by lia.
  assert (0 < 2 ^ (16 - znth xs s)) by (apply Z.pow_pos_nonneg; lia). nia.
Qed.
Lemma starts_inj T s t : starts T s -> starts T t -> s = t.
Proof.
  intros A B. pose proof (starts_range T s A) as RA. pose proof (starts_range T t B) as RB.
  destruct A as [Cs A], B as [Ct B]. pose proof (size_range s (proj1 Cs)). pose proof (size_range t (proj1 Ct)).
  destruct (Z.lt_trichotomy (znth xs s) (znth xs t)) as [L|[L|L]].
  - pose proof (weight_mono (znth xs s + 1) (znth xs t) xs ltac:(lia)). lia.
  - rewrite !first_low in * by auto. rewrite L in A.
    assert (0 < 2 ^ (16 - znth xs t)) by (apply Z.pow_pos_nonneg; lia).
    assert (rank xs s = rank xs t) as E by nia.
    apply place_inj; auto. unfold place. rewrite L, E. reflexivity.
  - pose proof (weight_mono (znth xs t + 1) (znth xs s) xs ltac:(lia)). lia.
Qed.

(** Entry number [t] of a lookup table of 2^tb entries is right. *)
Definition good (tb : Z) (lookup : list Z) (t : Z) : Prop :=
  exists s, starts (t * 2 ^ (16 - tb)) s /\ znth xs s <= tb /\ znth lookup t = s + znth xs s * 2 ^ 16.

Lemma for_range_inv_err {S} (I : Z -> S -> Prop) (Bad : Prop) lo hi (f : Z -> S -> res S) s :
  lo <= hi -> I lo s ->
  (forall i s, lo <= i < hi -> I i s -> (exists s', f i s = Ok s' /\ I (i + 1) s') \/ (f i s = Err "" /\ Bad)) ->
  (exists s', for_range lo hi f s = Ok s' /\ I hi s') \/ (for_range lo hi f s = Err "" /\ Bad).
Proof.
  intros Hle H0 Hstep. unfold for_range. remember (Z.to_nat (hi - lo)) as n eqn:En. revert lo s Hle H0 Hstep En.
  induction n as [|n IH]; intros lo s Hle H0 Hstep En.
  - rewrite zrange_nil by lia. cbn [for_list]. left. exists s. split; [reflexivity|]. replace hi with lo by lia. exact H0.
  - rewrite zrange_cons by lia. cbn [for_list]. destruct (Hstep lo s ltac:(lia) H0) as [(s' & E & I')|(E & B)]; rewrite E; cbn [bind].
    + apply (IH (lo + 1) s' ltac:(lia) I'); [|lia]. intros i s1 Hi. apply Hstep. lia.
    + right. split; [reflexivity|exact B].
Qed.
Lemma fill_lookup_ok s sorted tb : lens_at 17 s -> 1 <= tb <= 11 ->
  used 17 xs <= zlen sorted -> (forall t, coded xs t -> znth sorted (place t) = t) ->
  (exists lookup, fill_lookup m tb xs nc (l_max_codes s) (l_val_ptrs s) (l_min_codes s) sorted = Ok lookup /\
    weight (tb + 1) xs <= 2 ^ 16 /\
    zlen lookup = 2 ^ tb /\ forall t, 0 <= t -> t * 2 ^ (16 - tb) < weight (tb + 1) xs -> good tb lookup t) \/
  (fill_lookup m tb xs nc (l_max_codes s) (l_val_ptrs s) (l_min_codes s) sorted = Err "" /\ 2 ^ 16 < weight (tb + 1) xs).
Proof.
  intros (M & V & N & _) Htb Hl Hs. rewrite M, V, N. unfold fill_lookup.
  assert (0 < 2 ^ (16 - tb)) as Hp by (apply Z.pow_pos_nonneg; lia).
  assert (2 ^ 16 = 2 ^ tb * 2 ^ (16 - tb)) as E16 by (rewrite <- Z.pow_add_r by lia; f_equal; lia).
  apply (for_range_inv_err (fun l lookup => weight l xs <= 2 ^ 16 /\ zlen lookup = 2 ^ tb /\
    forall t, 0 <= t -> t * 2 ^ (16 - tb) < weight l xs -> good tb lookup t) (2 ^ 16 < weight (tb + 1) xs) 1 (tb + 1)).
  - lia.
  - split; [rewrite weight_1; lia|]. split; [rewrite repeat_tab, zlen_tab; pose proof (Z.pow_pos_nonneg 2 tb); lia|].
    intros t Ht. rewrite weight_1. nia.
  - intros l lookup Hlr (L0 & L1 & L2). rewrite idx_nc by lia. cbn [bind].
    destruct (Z.eqb_spec (cnt l xs) 0) as [Z0|Z0].
    + left. exists lookup. split; [reflexivity|]. rewrite weight_step, Z0 by lia. rewrite Z.add_0_r. split; [exact L0|split; [exact L1|exact L2]].
    + assert (has l = true) as Hh by (apply has_true; pose proof (cnt_nonneg l xs); lia).
      assert (0 < 2 ^ (tb - l)) as Hf by (apply Z.pow_pos_nonneg; lia).
      assert (2 ^ (tb - l) <= 2 ^ 11) as Hf' by (apply Z.pow_le_mono_r; lia).
      rewrite ushl_ok by lia. cbn [bind]. rewrite Z.mul_1_l, (Z.mod_small (2 ^ (tb - l))) by lia.
      assert (forall j, j = l - 1 -> (j + 1 <? 17) && has (j + 1) = true) as K.
      { intros j ->. replace (l - 1 + 1) with l by lia. rewrite Hh. destruct (Z.ltb_spec l 17); [reflexivity|lia]. }
      rewrite idx_tab by lia. cbn [bind]. rewrite K by lia. replace (l - 1 + 1) with l by lia.
      unfold get_unshifted_max_code, MAX_EXPECTED_CODE_SIZE.
      replace ((1 <=? l) && (l <=? 16)) with true by (symmetry; apply andb_true_intro; split; apply Z.leb_le; lia).
      cbn [negb]. rewrite idx_tab by lia. cbn [bind]. rewrite K by lia. replace (l - 1 + 2) with (l + 1) by lia.
      pose proof (low_top l ltac:(lia)) as Lt. pose proof (weight_range (l + 1) ltac:(lia)) as Rw.
      pose proof (low_range l ltac:(lia)) as Rl. pose proof (cnt_le l) as Rc. pose proof (low_weight l ltac:(lia)) as Lw.
      assert (0 < 2 ^ (16 - l)) as Hp2 by (apply Z.pow_pos_nonneg; lia).
      destruct (Z.eqb_spec (weight (l + 1) xs) 0) as [W0|W0]; [nia|].
      rewrite ushr_ok by lia. cbn [bind].
      assert ((weight (l + 1) xs - 1) / 2 ^ (16 - l) + 1 = low l + cnt l xs) as Mx.
      { rewrite <- Lt. replace ((low l + cnt l xs) * 2 ^ (16 - l) - 1) with ((low l + cnt l xs - 1) * 2 ^ (16 - l) + (2 ^ (16 - l) - 1)) by ring.
        rewrite Z.div_add_l, Z.div_small by lia. lia. }
      rewrite Mx. rewrite idx_tab by lia. cbn [bind]. rewrite K by lia. replace (l - 1 + 1) with l by lia.
      pose proof (used_range l) as Ru. unfold u32. rewrite (Z.mod_small (used l xs)) by lia.
      assert (2 ^ (tb - l) * 2 ^ (16 - tb) = 2 ^ (16 - l)) as Ef by (rewrite <- Z.pow_add_r by lia; f_equal; lia).
      edestruct (for_range_inv_err (fun code lookup => code * 2 ^ (tb - l) <= 2 ^ tb /\ zlen lookup = 2 ^ tb /\
         forall t, 0 <= t -> t < code * 2 ^ (tb - l) -> good tb lookup t) (2 ^ tb < (low l + cnt l xs) * 2 ^ (tb - l)) (low l) (low l + cnt l xs)) as [(lk & E & F0 & F1 & F2)|(E & F0)];
        [lia| | |left; exists lk; split; [exact E|split; [|split; [exact F1|]]]|right; split; [exact E|]].
      * split; [apply (Z.mul_le_mono_pos_r _ _ (2 ^ (16 - tb))); [exact Hp|]; rewrite <- E16, <- Z.mul_assoc, Ef; lia|]. split; [exact L1|]. intros t Ht Hlt. apply L2; [exact Ht|]. rewrite <- Lw. nia.
      * intros code lk Hcode (F0 & F1 & F2).
        rewrite ua_ok by lia. cbn [bind]. rewrite ua_ok by lia. cbn [bind].
        destruct (rank_ex l (code - low l) xs ltac:(lia)) as (y & Hy & Sy & Ry).
        assert (coded xs y) as Cy by (split; [exact Hy|lia]).
        assert (place y = used l xs + code - low l) as Py by (unfold place; rewrite Sy, Ry; lia).
        pose proof (place_range y Cy) as Rp.
        rewrite idx_ok by lia. cbn [bind]. rewrite <- Py, Hs by auto. rewrite idx_ok by lia. cbn [bind].
        rewrite Sy, Z.eqb_refl. cbn [negb].
        assert (first_word xs y = code * 2 ^ (16 - l)) as Fw by (rewrite first_low by auto; rewrite Sy, Ry; f_equal; lia).
        edestruct (for_range_inv_err (fun j lookup => code * 2 ^ (tb - l) + j <= 2 ^ tb /\ zlen lookup = 2 ^ tb /\
           forall t, 0 <= t -> t < code * 2 ^ (tb - l) + j -> good tb lookup t) (2 ^ tb < code * 2 ^ (tb - l) + 2 ^ (tb - l)) 0 (2 ^ (tb - l))) as [(lk' & E' & G0 & G1 & G2)|(E' & G0)];
          [lia| | |left; exists lk'; split; [exact E'|split; [|split; [exact G1|]]]|right; split; [exact E'|]].
        -- split; [lia|]. split; [exact F1|]. intros t Ht. rewrite Z.add_0_r. intros. apply F2; auto.
        -- intros j lk' Hj (G0 & G1 & G2).
           assert (2 ^ tb <= 2 ^ 11) by (apply Z.pow_le_mono_r; lia).
           assert (0 <= code * 2 ^ (tb - l)) by nia.
           rewrite ushl_ok by lia. cbn [bind]. rewrite (Z.mod_small (code * _)) by lia.
           rewrite ua_ok by lia. cbn [bind]. rewrite ushl_ok by lia. cbn [bind].
           rewrite Z.mul_1_l, (Z.mod_small (2 ^ tb)) by lia.
           destruct (Z.leb_spec (2 ^ tb) (j + code * 2 ^ (tb - l))) as [Gt|Gt]; [right; split; [reflexivity|lia]|]. left.
           rewrite ushl_ok by lia. cbn [bind]. rewrite (Z.mod_small (l * 2 ^ 16)) by lia.
           rewrite lor_comm_add by lia.
           rewrite upd_ok by lia. eexists. split; [reflexivity|]. split; [lia|]. split; [rewrite zlen_replace_nth; exact G1|].
           intros t Ht0 Ht1. rewrite Z.add_assoc in Ht1.
           destruct (Z.eq_dec t (j + code * 2 ^ (tb - l))) as [->|Hne].
           ++ exists y. split; [|split; [lia|]].
              ** split; [exact Cy|]. rewrite Fw, Sy, Z.mul_add_distr_r, <- Z.mul_assoc, Ef. split; [nia|].
                 assert (j * 2 ^ (16 - tb) < 2 ^ (16 - l)) by (rewrite <- Ef; apply Z.mul_lt_mono_pos_r; lia). lia.
              ** rewrite znth_replace by lia. rewrite Z.eqb_refl, Sy. reflexivity.
           ++ destruct (G2 t Ht0 ltac:(lia)) as (z & Sz & Lz & Ez). exists z. split; [exact Sz|split; [exact Lz|]].
              rewrite znth_replace by lia. destruct (Z.eqb_spec t (j + code * 2 ^ (tb - l))); [congruence|exact Ez].
        -- lia.
        -- intros t Ht Hlt. apply G2; [exact Ht|]. lia.
        -- assert (code + 1 <= low l + cnt l xs) as Hc1 by lia.
           apply (Z.mul_le_mono_pos_r _ _ (2 ^ (tb - l)) Hf) in Hc1. lia.
      * rewrite <- Lt, E16, <- Ef, Z.mul_assoc. apply Z.mul_le_mono_nonneg_r; lia.
      * intros t Ht Hlt. apply F2; [exact Ht|]. rewrite <- Lt in Hlt. rewrite <- Ef in Hlt. nia.
      * apply Z.lt_le_trans with (weight (l + 1) xs); [|apply weight_mono; lia].
        rewrite <- Lt, E16, <- Ef, Z.mul_assoc. apply Z.mul_lt_mono_pos_r; lia.
Qed.

Lemma adjust_val_ptrs_ok s : lens_at 17 s ->
  exists vp, adjust_val_ptrs m (l_val_ptrs s) (l_min_codes s) = Ok vp /\ zlen vp = 17 /\
    forall j, 0 <= j < 16 -> has (j + 1) = true -> znth vp j = used (j + 1) xs - low (j + 1).
Proof.
  intros (_ & V & N & _). rewrite V, N. unfold adjust_val_ptrs.
  set (f := fun j => if (j + 1 <? 17) && has (j + 1) then used (j + 1) xs else 0).
  set (g := fun j => if (j + 1 <? 17) && has (j + 1) then low (j + 1) else 0).
  assert (forall j, 0 <= j < 16 -> 0 <= f j <= 8192 /\ 0 <= g j <= 2 ^ 29) as R.
  { intros j Hj. unfold f, g. pose proof (used_range (j + 1)). pose proof (low_range (j + 1) ltac:(lia)).
    destruct (_ && _); lia. }
  edestruct (for_range_inv (fun i vp => vp = tab 17 (fun j => if j <? i then f j - g j else f j)) 0 16) as (vp & E & ->);
    [lia| | |exists (tab 17 (fun j => if j <? 16 then f j - g j else f j)); split; [exact E|split; [apply zlen_tab|]]].
  - apply tab_ext. intros j Hj. destruct (Z.ltb_spec j 0); [lia|reflexivity].
  - intros i vp Hi ->. destruct (R i ltac:(lia)) as [R1 R2].
    rewrite idx_tab by lia. cbn [bind]. rewrite Z.ltb_irrefl. rewrite idx_tab by lia. cbn [bind].
    assert (swrap 32 (g i) = g i) as ->.
    { unfold swrap. rewrite Z.mod_small by lia. destruct (Z.ltb_spec (g i) (2 ^ (32 - 1))); lia. }
    rewrite ia_ok by lia. cbn [bind]. rewrite upd_tab_if by lia. eexists. split; [reflexivity|].
    apply tab_ext. intros j Hj. destruct (Z.eqb_spec j i) as [->|]; [destruct (Z.ltb_spec i (i + 1)); [reflexivity|lia]|].
    destruct (Z.ltb_spec j i), (Z.ltb_spec j (i + 1)); lia || reflexivity.
  - intros j Hj Hh. rewrite znth_tab by lia. destruct (Z.ltb_spec j 16); [|lia].
    unfold f, g. rewrite Hh. destruct (Z.ltb_spec (j + 1) 17); [reflexivity|lia].
Qed.

(** ** Start of the slow path *)
Lemma first_with_has l : Forall (fun i => 1 <= i <= 16) l ->
  first_with (fun i => let* n := idx nc i in Ok (negb (n =? 0))) l = Ok (find has l).
Proof.
  induction 1 as [|i l Hi _ IH]; cbn [first_with find]; [reflexivity|].
  rewrite idx_nc by lia. cbn [bind]. fold (has i). destruct (has i); [reflexivity|exact IH].
Qed.
Lemma find_up (p : Z -> bool) a b : match find p (zrange a b) with
  | Some j => a <= j < b /\ p j = true /\ forall k, a <= k < j -> p k = false
  | None => forall k, a <= k < b -> p k = false
  end.
Proof.
  destruct (Z.le_gt_cases b a) as [L|L]; [rewrite zrange_nil by lia; cbn [find]; intros; lia|].
  revert a L. refine (fun a L => _). remember (Z.to_nat (b - a)) as n eqn:En. revert a L En.
  induction n as [|n IH]; intros a L En; [lia|]. rewrite zrange_cons by lia. cbn [find].
  destruct (p a) eqn:Pa; [split; [lia|split; [exact Pa|intros; lia]]|].
  destruct (Z.eq_dec (a + 1) b) as [E|E].
  - rewrite (zrange_nil (a + 1)) by lia. cbn [find]. intros k Hk. replace k with a by lia. exact Pa.
  - specialize (IH (a + 1) ltac:(lia) ltac:(lia)). destruct (find p (zrange (a + 1) b)) as [j|].
    + destruct IH as (H1 & H2 & H3). split; [lia|split; [exact H2|]]. intros k Hk.
      destruct (Z.eq_dec k a) as [->|]; [exact Pa|apply H3; lia].
    + intros k Hk. destruct (Z.eq_dec k a) as [->|]; [exact Pa|apply IH; lia].
Qed.
Lemma find_down (p : Z -> bool) a b : match find p (rev (zrange a b)) with
  | Some j => a <= j < b /\ p j = true /\ forall k, j < k < b -> p k = false
  | None => forall k, a <= k < b -> p k = false
  end.
Proof.
  destruct (Z.le_gt_cases b a) as [L|L]; [rewrite zrange_nil by lia; cbn [rev find]; intros; lia|].
  remember (Z.to_nat (b - a)) as n eqn:En. revert b L En.
  induction n as [|n IH]; intros b L En; [lia|].
  replace b with ((b - 1) + 1) by lia. rewrite zrange_snoc by lia. rewrite rev_app_distr. cbn [rev app find].
  destruct (p (b - 1)) eqn:Pa; [split; [lia|split; [exact Pa|intros; lia]]|].
  destruct (Z.eq_dec (a + 1) b) as [E|E].
  - rewrite zrange_nil by lia. cbn [rev find]. intros k Hk. replace k with (b - 1) by lia. exact Pa.
  - specialize (IH (b - 1) ltac:(lia) ltac:(lia)). destruct (find p (rev (zrange a (b - 1)))) as [j|].
    + destruct IH as (H1 & H2 & H3). split; [lia|split; [exact H2|]]. intros k Hk.
      destruct (Z.eq_dec k (b - 1)) as [->|]; [exact Pa|apply H3; lia].
    + intros k Hk. destruct (Z.eq_dec k (b - 1)) as [->|]; [exact Pa|apply IH; lia].
Qed.

(** What the decoder needs to know about the start of the slow path. *)
Definition start_right (tb tmc start : Z) : Prop :=
  0 <= tmc <= weight (tb + 1) xs /\
  forall s, coded xs s ->
    1 <= start <= 16 /\
    ((weight (znth xs s + 1) xs <= tmc) \/ (1 <= start <= znth xs s /\ tmc <= weight (znth xs s) xs)).

Lemma start_code_ok s tb : lens_at 17 s -> 0 <= tb <= 11 ->
  exists tmc start, start_code tb (l_min_size s) (l_max_size s) nc (l_max_codes s) = Ok (tmc, start) /\
    start_right tb tmc start.
Proof.
  intros (M & _ & _ & _ & _ & _ & (X1 & X2) & (N1 & N2)) Htb. unfold start_code.
  assert (forall s', coded xs s' -> 1 <= u8 (l_min_size s) <= znth xs s') as Hmin.
  { intros s' [Hs Hc]. pose proof (size_range s' Hs). pose proof (N2 (znth xs s') ltac:(lia) (has_size s' Hs)).
    unfold u8. rewrite Z.mod_small by lia. lia. }
  assert (forall j, 1 <= j <= 17 -> 0 <= weight j xs) as Hw by (intros j Hj; pose proof (weight_range j ltac:(lia)); lia).
  assert (start_right tb 0 (u8 (l_min_size s))) as D.
  { split; [split; [lia|apply Hw; lia]|]. intros s' Hc. split; [pose proof (Hmin s' Hc); pose proof (size_range s' (proj1 Hc)); lia|]. right. split; [apply Hmin; auto|].
    destruct Hc as [Hs Hc]. pose proof (size_range s' Hs). apply Hw. lia. }
  destruct (Z.eqb_spec tb 0) as [Z0|Z0]; [exists 0, (u8 (l_min_size s)); split; [reflexivity|exact D]|].
  rewrite first_with_has by (apply Forall_forall; intros i Hi; apply in_rev, in_zrange in Hi; lia).
  cbn [bind]. pose proof (find_down has 1 (tb + 1)) as F. destruct (find has (rev _)) as [i|].
  2: { exists 0, (u8 (l_min_size s)); split; [reflexivity|exact D]. }
  destruct F as (F1 & F2 & F3). rewrite M, idx_tab by lia. cbn [bind].
  replace (i - 1 + 1) with i by lia. rewrite F2. destruct (Z.ltb_spec i 17); [|lia]. cbn [andb].
  replace (i - 1 + 2) with (i + 1) by lia.
  rewrite first_with_has by (apply Forall_forall; intros j Hj; apply in_zrange in Hj; lia).
  cbn [bind]. eexists _, _. split; [reflexivity|]. split.
  - split; [apply Hw; lia|apply weight_mono; lia].
  - intros s' [Hs Hc]. pose proof (size_range s' Hs) as R. pose proof (has_size s' Hs) as Hh.
    pose proof (find_up has (tb + 1) (l_max_size s + 1)) as G.
    split; [destruct (find has (zrange _ _)) as [j|]; [destruct G as (G1 & _)|]; lia|].
    destruct (Z.le_gt_cases (znth xs s') i) as [L|L]; [left; apply weight_mono; lia|right].
    split; [|apply weight_mono; lia].
    assert (tb < znth xs s') as Lt.
    { destruct (Z.le_gt_cases (znth xs s') tb) as [Le|]; [|lia].
      rewrite F3 in Hh by lia. discriminate. }
    destruct (find has (zrange _ _)) as [j|]; [|specialize (X2 (znth xs s') ltac:(lia) Hh); rewrite G in Hh by lia; discriminate].
    destruct G as (G1 & G2 & G3). split; [lia|].
    destruct (Z.le_gt_cases j (znth xs s')) as [|Gt]; [lia|]. rewrite G3 in Hh by lia. discriminate.
Qed.

(** ** Tables *)
Definition right_tables (t : tables) : Prop :=
  0 <= t_table_bits t <= 11 /\
  start_right (t_table_bits t) (t_table_max_code t) (t_decode_start_code_size t) /\
  (zlen (t_max_codes t) = 17 /\ forall j, 0 <= j < 16 -> znth (t_max_codes t) j = if has (j + 1) then weight (j + 2) xs else 0) /\
  (zlen (t_val_ptrs t) = 17 /\ forall j, 0 <= j < 16 -> has (j + 1) = true -> znth (t_val_ptrs t) j = used (j + 1) xs - low (j + 1)) /\
  (t_table_bits t <> 0 -> zlen (t_lookup t) = 2 ^ t_table_bits t /\
     forall i, 0 <= i -> i * 2 ^ (16 - t_table_bits t) < weight (t_table_bits t + 1) xs -> good (t_table_bits t) (t_lookup t) i) /\
  (used 17 xs <= zlen (t_sorted t) /\ forall s, coded xs s -> znth (t_sorted t) (place s) = s) /\
  (znth (t_max_codes t) 16 = 2 ^ 32 - 1 /\ znth (t_val_ptrs t) 16 = 1048575) /\
  ((forall s, ~ coded xs s) -> t_table_max_code t = 0 /\ t_decode_start_code_size t = 255).

(** Number of bits of the lookup table. *)
Definition shortest (n : Z) : Prop := exists s, coded xs s /\ znth xs s = n /\ forall t, coded xs t -> n <= znth xs t.
Definition lookup_used (tb0 : Z) : Prop := exists s, coded xs s /\ znth xs s < tb0.
Lemma has_coded l : 1 <= l -> has l = true -> exists s, coded xs s /\ znth xs s = l.
Proof.
  intros Hl H. apply has_true in H. destruct (rank_ex l 0 xs ltac:(lia)) as (y & Hy & Sy & _).
  exists y. split; [split; [exact Hy|lia]|exact Sy].
Qed.

Lemma tables_init_all tb0 : 0 <= tb0 <= 11 ->
  (exists t, tables_init m (zlen xs) xs tb0 = Ok t /\ right_tables t /\ (lookup_used tb0 -> weight (tb0 + 1) xs <= 2 ^ 16)) \/
  (tables_init m (zlen xs) xs tb0 = Err "" /\ lookup_used tb0 /\ 2 ^ 16 < weight (tb0 + 1) xs).
Proof.
  intros Htb. unfold tables_init, MAX_TABLE_BITS.
  destruct (Z.eqb_spec (zlen xs) 0); [lia|]. destruct (Z.ltb_spec 11 tb0); [lia|]. cbn [orb].
  rewrite count_codes_ok. fold nc. cbn [bind]. destruct length_loop_ok as (s & -> & L). cbn [bind].
  destruct (sort_symbols_ok s L) as (sp & sorted & -> & S1 & S2). cbn [bind].
  set (tb := if tb0 <=? u8 (l_min_size s) then 0 else tb0).
  assert (0 <= tb <= 11) as Htb' by (unfold tb; destruct (_ <=? _); lia).
  assert (lookup_used tb0 <-> tb = tb0 /\ tb0 <> 0) as HU.
  { pose proof L as (_ & _ & _ & _ & _ & _ & _ & (N1 & N2)). unfold tb, lookup_used, u8. split.
    - intros (s' & Hc & Hlt). pose proof (size_range s' (proj1 Hc)).
      pose proof (N2 (znth xs s') ltac:(destruct Hc; lia) (has_size s' (proj1 Hc))).
      rewrite Z.mod_small by lia. destruct (Z.leb_spec tb0 (l_min_size s)); destruct Hc; lia.
    - intros [E Nz]. revert E. change (2 ^ 8) with 256. destruct (Z.leb_spec tb0 (l_min_size s mod 256)) as [|Lt]; [lia|intros _].
      destruct N1 as [N1|[N1 Hh]]; [rewrite N1 in Lt; change ((2 ^ 32 - 1) mod 256) with 255 in Lt; lia|].
      destruct (has_coded (l_min_size s) ltac:(lia) Hh) as (y & Cy & Sy). exists y. split; [exact Cy|].
      rewrite Z.mod_small in Lt by lia. lia. }
  assert ((exists lookup, (if tb =? 0 then Ok [] else fill_lookup m tb xs nc (l_max_codes s) (l_val_ptrs s) (l_min_codes s) sorted) = Ok lookup /\
    (tb <> 0 -> weight (tb + 1) xs <= 2 ^ 16 /\ zlen lookup = 2 ^ tb /\ forall t, 0 <= t -> t * 2 ^ (16 - tb) < weight (tb + 1) xs -> good tb lookup t)) \/
    ((if tb =? 0 then Ok [] else fill_lookup m tb xs nc (l_max_codes s) (l_val_ptrs s) (l_min_codes s) sorted) = Err "" /\ tb <> 0 /\ 2 ^ 16 < weight (tb + 1) xs))
    as [(lookup & -> & F)|(-> & Nz & F)].
  { destruct (Z.eqb_spec tb 0) as [E|E]; [left; exists []; split; [reflexivity|congruence]|].
    destruct (fill_lookup_ok s sorted tb L ltac:(lia) S1 S2) as [(lk & E1 & E2)|(E1 & E2)].
    - left. exists lk. split; [exact E1|intros _; exact E2].
    - right. auto. }
  2: { right. cbn [bind]. assert (tb = tb0) as Et by (unfold tb in *; destruct (_ <=? _); [congruence|reflexivity]).
       split; [reflexivity|]. rewrite <- Et. split; [|exact F]. rewrite Et. apply HU. lia. }
  left. cbn [bind]. destruct (adjust_val_ptrs_ok s L) as (vp & -> & V1 & V2). cbn [bind].
  destruct (start_code_ok s tb L Htb') as (tmc & start & Es & R). pose proof Es as Es'. rewrite Es. cbn [bind].
  pose proof L as (M & _ & _ & _ & _ & _ & _ & (N1 & _)). rewrite M.
  rewrite upd_ok by (rewrite zlen_tab; lia). cbn [bind]. rewrite upd_ok by lia. cbn [bind].
  eexists. split; [reflexivity|]. split; [|intros U; apply HU in U as [Eq U]; rewrite <- Eq in U |- *; apply F; exact U].
  unfold right_tables. cbn [t_table_bits t_table_max_code t_decode_start_code_size t_max_codes t_val_ptrs t_lookup t_sorted].
  split; [exact Htb'|]. split; [exact R|]. split; [|split; [|split; [intros Nz; apply F; exact Nz|split; [split; [exact S1|exact S2]|split]]]].
  - split; [rewrite zlen_replace_nth, zlen_tab; reflexivity|]. intros j Hj.
    rewrite znth_replace by (rewrite ?zlen_tab; lia). destruct (Z.eqb_spec j 16); [lia|].
    rewrite znth_tab by lia. destruct (Z.ltb_spec (j + 1) 17); [reflexivity|lia].
  - split; [rewrite zlen_replace_nth; exact V1|]. intros j Hj Hh.
    rewrite znth_replace by lia. destruct (Z.eqb_spec j 16); [lia|]. apply V2; auto.
  - split; rewrite znth_replace by (rewrite ?zlen_tab; lia); reflexivity.
  - intros No. destruct N1 as [N1|[N1 Hh]].
    2: { destruct (has_coded _ (proj1 N1) Hh) as (y & Cy & _). destruct (No y Cy). }
    assert (tb = 0) as E0.
    { unfold tb. rewrite N1. change (u8 (2 ^ 32 - 1)) with 255. destruct (Z.leb_spec tb0 255); [reflexivity|lia]. }
    unfold start_code in Es'. rewrite E0, N1 in Es'. cbn [Z.eqb] in Es'. change (u8 (2 ^ 32 - 1)) with 255 in Es'.
    inversion Es'. auto.
Qed.

(** ** Looking a code up *)
Lemma code_length_ok k mc len from : forall l0, l0 = skipn (Z.to_nat from) mc -> 0 <= from -> from + 1 <= len <= zlen mc ->
  (forall j, from <= j < len - 1 -> znth mc j < k) -> k <= znth mc (len - 1) ->
  code_length k l0 (from + 1) = Ok len.
Proof.
  remember (Z.to_nat (len - 1 - from)) as n eqn:En. revert from En.
  induction n as [|n IH]; intros from En l0 -> Hf Hl Hlt Hle.
  - rewrite skipn_step by lia. cbn [code_length]. replace (from) with (len - 1) by lia.
    destruct (Z.leb_spec k (znth mc (len - 1))); [f_equal; lia|lia].
  - rewrite skipn_step by lia. cbn [code_length]. specialize (Hlt from ltac:(lia)) as Hk.
    destruct (Z.leb_spec k (znth mc from)); [lia|].
    apply IH; auto; try lia. intros j Hj. apply Hlt. lia.
Qed.

Lemma lookup_symbol_ok md bit_buf s : right_tables (m_tables md) -> m_code_sizes md = xs -> m_total_syms md = zlen xs ->
  0 <= bit_buf < 2 ^ 32 -> starts (bit_buf / 2 ^ 16) s -> lookup_symbol m md bit_buf = Ok (s, znth xs s).
Proof.
  intros (Htb & (R0 & R1) & (M1 & M2) & (V1 & V2) & F & (S1 & S2) & _) Ec Et Hb St. unfold lookup_symbol.
  rewrite Ec, Et. set (t := m_tables md) in *. rewrite shr_div by lia.
  set (T := bit_buf / 2 ^ 16) in *.
  assert (0 <= T < 2 ^ 16) as HT.
  { unfold T. split; [apply Z.div_pos; lia|apply Z.div_lt_upper_bound; lia]. }
  pose proof (starts_range T s St) as RT. pose proof (proj1 St) as Cs.
  pose proof (size_range s (proj1 Cs)) as Rs. assert (1 <= znth xs s) as R1s by (destruct Cs as [? C2]; lia).
  destruct (Z.leb_spec (T + 1) (t_table_max_code t)) as [Lf|Lf].
  - assert (t_table_bits t <> 0) as Nz.
    { intros E. rewrite E in R0. change (0 + 1) with 1 in R0. rewrite weight_1 in R0. lia. }
    destruct (F Nz) as (F1 & F2). set (tb := t_table_bits t) in *.
    rewrite ushr_ok by lia. cbn [bind].
    assert (0 < 2 ^ (16 - tb)) as Hp by (apply Z.pow_pos_nonneg; lia).
    assert (2 ^ 16 = 2 ^ tb * 2 ^ (16 - tb)) as E16 by (rewrite <- Z.pow_add_r by lia; f_equal; lia).
    assert (bit_buf / 2 ^ (32 - tb) = T / 2 ^ (16 - tb)) as ->.
    { unfold T. rewrite Z.div_div by lia. rewrite <- Z.pow_add_r by lia. f_equal. f_equal. lia. }
    assert (0 <= T / 2 ^ (16 - tb) < 2 ^ tb) as Ri by (split; [apply Z.div_pos; lia|apply Z.div_lt_upper_bound; lia]).
    pose proof (Z.div_mod T (2 ^ (16 - tb)) ltac:(lia)) as DM. pose proof (Z.mod_pos_bound T (2 ^ (16 - tb)) Hp) as MB.
    destruct (F2 (T / 2 ^ (16 - tb)) ltac:(lia)) as (y & (Cy & Fy) & Ly & Ey); [lia|].
    assert (starts T y) as Sy.
    { split; [exact Cy|]. rewrite first_low in * by auto. pose proof (size_range y (proj1 Cy)).
      assert (2 ^ (16 - znth xs y) = 2 ^ (tb - znth xs y) * 2 ^ (16 - tb)) as E by (rewrite <- Z.pow_add_r by lia; f_equal; lia).
      set (c := low (znth xs y) + rank xs y) in *. rewrite E in *. set (q := T / 2 ^ (16 - tb)) in *.
      rewrite Z.mul_assoc, <- Z.mul_add_distr_r in Fy. rewrite Z.mul_assoc, <- Z.mul_add_distr_r.
      assert (c * 2 ^ (tb - znth xs y) <= q < c * 2 ^ (tb - znth xs y) + 2 ^ (tb - znth xs y)) as Q.
      { split; [apply (Z.mul_le_mono_pos_r _ _ (2 ^ (16 - tb))); lia|apply (Z.mul_lt_mono_pos_r (2 ^ (16 - tb))); lia]. }
      clear - DM MB Q Hp. nia. }
    assert (y = s) as -> by (eapply starts_inj; eauto).
    rewrite idx_ok by lia. cbn [bind]. rewrite Ey.
    assert (0 <= s < 2 ^ 16) as Hs16 by (destruct Cs; lia).
    destruct (Z.eqb_spec (s + znth xs s * 2 ^ 16) (2 ^ 32 - 1)); [lia|].
    assert (Z.land (s + znth xs s * 2 ^ 16) 65535 = s) as ->.
    { change 65535 with (2 ^ 16 - 1). rewrite land_mask by lia. rewrite Z.mod_add by lia. apply Z.mod_small; lia. }
    assert (Z.shiftr (s + znth xs s * 2 ^ 16) 16 = znth xs s) as ->.
    { rewrite shr_div by lia. rewrite Z.div_add, Z.div_small by lia. lia. }
    rewrite idx_ok by (destruct Cs; lia). cbn [bind]. rewrite Z.eqb_refl. reflexivity.
  - destruct (R1 s Cs) as [Rst [Lw|(Ls & Lw)]]; [lia|].
    set (start := t_decode_start_code_size t) in *.
    rewrite ua_ok by lia. cbn [bind]. rewrite slice_from_ok by lia. cbn [bind].
    pose proof (has_size s (proj1 Cs)) as Hh.
    assert (has (znth xs s - 1 + 1) = true) as Hh' by (replace (znth xs s - 1 + 1) with (znth xs s) by lia; exact Hh).
    assert (code_length (T + 1) (skipn (Z.to_nat (start - 1)) (t_max_codes t)) start = Ok (znth xs s)) as ->.
    { pose proof (code_length_ok (T + 1) (t_max_codes t) (znth xs s) (start - 1) _ eq_refl) as C.
      replace (start - 1 + 1) with start in C by lia. apply C; try lia.
      - intros j Hj. rewrite M2 by lia. destruct (has (j + 1)) eqn:Hj'; [|lia].
        pose proof (weight_mono (j + 2) (znth xs s) xs ltac:(lia)). lia.
      - rewrite M2 by lia. rewrite Hh'. replace (znth xs s - 1 + 2) with (znth xs s + 1) by lia. lia. }
    cbn [bind]. rewrite idx_ok by lia. cbn [bind]. rewrite ushr_ok by lia. cbn [bind].
    rewrite V2 by (auto; lia). replace (znth xs s - 1 + 1) with (znth xs s) by lia.
    assert (bit_buf / 2 ^ (32 - znth xs s) = low (znth xs s) + rank xs s) as ->.
    { replace (32 - znth xs s) with (16 + (16 - znth xs s)) by lia. rewrite Z.pow_add_r by lia.
      rewrite <- Z.div_div by (try apply Z.pow_pos_nonneg; try apply Z.pow_nonzero; lia). fold T.
      destruct St as [_ St]. rewrite first_low in St by auto.
      symmetry. apply Z.div_unique with (T - (low (znth xs s) + rank xs s) * 2 ^ (16 - znth xs s)); [left; lia|lia]. }
    pose proof (low_range (znth xs s) ltac:(lia)) as Lr. pose proof (rank_lt xs s (proj1 Cs)) as Rr.
    pose proof (cnt_le (znth xs s)) as Cl. pose proof (place_range s Cs) as Pr. pose proof (used_range 17) as Ur.
    pose proof (used_le 17 xs) as Ul.
    assert (swrap 32 (low (znth xs s) + rank xs s) = low (znth xs s) + rank xs s) as ->.
    { unfold swrap. rewrite Z.mod_small by lia. destruct (Z.ltb_spec (low (znth xs s) + rank xs s) (2 ^ (32 - 1))); lia. }
    replace (used (znth xs s) xs - low (znth xs s) + (low (znth xs s) + rank xs s)) with (place s) by (unfold place; lia).
    rewrite ia_ok by lia. cbn [bind]. unfold u32, u64. rewrite !(Z.mod_small (place s)) by lia.
    destruct (Z.leb_spec (zlen xs) (place s)); [lia|]. rewrite idx_ok by lia. cbn [bind]. rewrite S2 by auto. reflexivity.
Qed.

(** Words starting with no code. *)
Lemma lookup_symbol_none md bit_buf : right_tables (m_tables md) -> m_total_syms md = zlen xs ->
  0 <= bit_buf < 2 ^ 32 -> weight 17 xs <= bit_buf / 2 ^ 16 -> (exists s, coded xs s) -> lookup_symbol m md bit_buf = Err "".
Proof.
  intros (Htb & (R0 & R1) & (M1 & M2) & (V1 & V2) & F & (S1 & S2) & (L1 & L2) & _) Et Hb HT (s & Cs). unfold lookup_symbol.
  rewrite Et. set (t := m_tables md) in *. rewrite shr_div by lia. set (T := bit_buf / 2 ^ 16) in *.
  pose proof (weight_mono (t_table_bits t + 1) 17 xs ltac:(lia)) as Wm.
  destruct (Z.leb_spec (T + 1) (t_table_max_code t)) as [Lf|Lf]; [lia|].
  assert (0 <= T < 2 ^ 16) as HT2.
  { unfold T. split; [apply Z.div_pos; lia|apply Z.div_lt_upper_bound; lia]. }
  destruct (R1 s Cs) as [Rst _]. set (start := t_decode_start_code_size t) in *.
  rewrite ua_ok by lia. cbn [bind]. rewrite slice_from_ok by lia. cbn [bind].
  assert (code_length (T + 1) (skipn (Z.to_nat (start - 1)) (t_max_codes t)) start = Ok 17) as ->.
  { pose proof (code_length_ok (T + 1) (t_max_codes t) 17 (start - 1) _ eq_refl) as C.
    replace (start - 1 + 1) with start in C by lia. apply C; try lia.
    - intros j Hj. rewrite M2 by lia. destruct (has (j + 1)) eqn:Hj'; [|lia].
      pose proof (weight_mono (j + 2) 17 xs ltac:(lia)). lia.
    - change (17 - 1) with 16. lia. }
  cbn [bind]. rewrite idx_ok by lia. cbn [bind]. rewrite ushr_ok by lia. cbn [bind].
  change (17 - 1) with 16. rewrite L2. change (32 - 17) with 15.
  assert (0 <= bit_buf / 2 ^ 15 < 2 ^ 17) as Hc by (split; [apply Z.div_pos; lia|apply Z.div_lt_upper_bound; lia]).
  assert (swrap 32 (bit_buf / 2 ^ 15) = bit_buf / 2 ^ 15) as ->.
  { unfold swrap. rewrite Z.mod_small by lia. destruct (Z.ltb_spec (bit_buf / 2 ^ 15) (2 ^ (32 - 1))); lia. }
  rewrite ia_ok by lia. cbn [bind]. unfold u32. rewrite Z.mod_small by lia.
  destruct (Z.leb_spec (zlen xs) (1048575 + bit_buf / 2 ^ 15)); [reflexivity|lia].
Qed.
(** Codes without a code word. *)
Lemma lookup_symbol_empty md bit_buf : right_tables (m_tables md) -> 0 <= bit_buf -> (forall s, ~ coded xs s) -> lookup_symbol m md bit_buf = Panic.
Proof.
  intros (_ & _ & (M1 & _) & _ & _ & _ & _ & E) Hb No. destruct (E No) as [E1 E2]. unfold lookup_symbol. rewrite E1, E2.
  rewrite shr_div by lia. assert (0 <= bit_buf / 2 ^ 16) by (apply Z.div_pos; lia).
  destruct (Z.leb_spec (bit_buf / 2 ^ 16 + 1) 0); [lia|]. rewrite ua_ok by lia. cbn [bind].
  unfold slice_from. change (255 - 1) with 254. destruct (Z.leb_spec 254 (zlen (t_max_codes (m_tables md)))); [lia|].
  rewrite Bool.andb_false_r. reflexivity.
Qed.
(** Every word below the total weight starts with a code. *)
Lemma starts_ex T : 0 <= T < weight 17 xs -> exists s, starts T s.
Proof.
  intros HT.
  assert (exists l, 1 <= l <= 16 /\ weight l xs <= T < weight (l + 1) xs) as (l & Hl & HW).
  { pose proof (find_up (fun l => T <? weight (l + 1) xs) 1 17) as F. destruct (find _ _) as [l|].
    - destruct F as (F1 & F2 & F3). apply Z.ltb_lt in F2. exists l. split; [lia|split; [|exact F2]].
      destruct (Z.eq_dec l 1) as [->|]; [rewrite weight_1; lia|]. specialize (F3 (l - 1) ltac:(lia)).
      apply Z.ltb_ge in F3. replace (l - 1 + 1) with l in F3 by lia. exact F3.
    - specialize (F 16 ltac:(lia)). apply Z.ltb_ge in F. change (16 + 1) with 17 in F. lia. }
  assert (0 < 2 ^ (16 - l)) as Hp by (apply Z.pow_pos_nonneg; lia).
  pose proof (low_weight l Hl) as Lw. pose proof (low_top l Hl) as Lt.
  pose proof (Z.div_mod T (2 ^ (16 - l)) ltac:(lia)) as DM. pose proof (Z.mod_pos_bound T (2 ^ (16 - l)) Hp) as MB.
  assert (low l <= T / 2 ^ (16 - l)) as A by (apply Z.div_le_lower_bound; lia).
  assert (T / 2 ^ (16 - l) < low l + cnt l xs) as B by (apply Z.div_lt_upper_bound; lia).
  destruct (rank_ex l (T / 2 ^ (16 - l) - low l) xs ltac:(lia)) as (y & Hy & Sy & Ry).
  assert (coded xs y) as Cy by (split; [exact Hy|lia]). exists y. split; [exact Cy|].
  rewrite first_low by exact Cy. rewrite Sy, Ry. replace (low l + (T / 2 ^ (16 - l) - low l)) with (T / 2 ^ (16 - l)) by lia. lia.
Qed.

Lemma prepare_all : let tb := compute_decoder_table_bits (zlen xs) in
  (exists md, prepare_decoder_tables m xs = Ok md /\ m_code_sizes md = xs /\ m_total_syms md = zlen xs /\ right_tables (m_tables md) /\
     (lookup_used tb -> weight (tb + 1) xs <= 2 ^ 16)) \/
  (prepare_decoder_tables m xs = Err "" /\ lookup_used tb /\ 2 ^ 16 < weight (tb + 1) xs).
Proof.
  cbv zeta. unfold prepare_decoder_tables, MAX_SUPPORTED_SYMS.
  replace ((1 <=? zlen xs) && (zlen xs <=? 8192)) with true by (symmetry; apply andb_true_intro; split; apply Z.leb_le; lia).
  cbn [negb].
  destruct (tables_init_all (compute_decoder_table_bits (zlen xs))) as [(t & -> & R & U)|(-> & U)].
  { unfold compute_decoder_table_bits, MAX_TABLE_BITS, ceil_log2i. 
    destruct (Z.ltb_spec 16 (zlen xs)); [|lia]. pose proof (Z.log2_nonneg (zlen xs)). 
    split; [|lia]. repeat match goal with |- context [if ?b then _ else _] => destruct b end; lia. }
  - cbn [bind]. left. eexists. split; [reflexivity|]. split; [reflexivity|]. split; [reflexivity|]. split; [exact R|exact U].
  - right. split; [reflexivity|exact U].
Qed.

Lemma prepare_ok : weight 17 xs <= 2 ^ 16 -> 1 <= zlen xs ->
  exists md, prepare_decoder_tables m xs = Ok md /\ m_code_sizes md = xs /\
    forall bit_buf s, 0 <= bit_buf < 2 ^ 32 -> starts (bit_buf / 2 ^ 16) s -> lookup_symbol m md bit_buf = Ok (s, znth xs s).
Proof.
  intros HK _. destruct prepare_all as [(md & E & Es & Et & R & _)|(_ & _ & W)].
  - exists md. split; [exact E|]. split; [exact Es|]. intros. apply lookup_symbol_ok; auto.
  - exfalso. assert (compute_decoder_table_bits (zlen xs) + 1 <= 17) as H.
    { unfold compute_decoder_table_bits, MAX_TABLE_BITS. destruct (16 <? zlen xs); lia. }
    pose proof (weight_mono _ _ xs H). lia.
Qed.
End Tables.
