(** * Lemmas about [Base] *)
From Verif Require Import Base.

Ltac dlia := Z.to_euclidean_division_equations; lia.

Ltac inv H := inversion H; subst; clear H.

Lemma bind_ok {A B} (x : res A) (f : A -> res B) a :
  x = Ok a -> bind x f = f a.
Proof. intros ->; reflexivity. Qed.

Lemma bind_ok_inv {A B} (x : res A) (f : A -> res B) b :
  bind x f = Ok b -> exists a, x = Ok a /\ f a = Ok b.
Proof. destruct x; simpl; intros H; try discriminate; eauto. Qed.

Lemma ua_ok m w x : 0 <= x < 2 ^ w -> ua m w x = Ok x.
Proof.
  intros H; unfold ua.
  destruct (Z.leb_spec 0 x), (Z.ltb_spec x (2 ^ w)); simpl; try lia; reflexivity.
Qed.

Lemma ua_checked_inv w x y : ua Checked w x = Ok y -> y = x /\ 0 <= x < 2 ^ w.
Proof.
  unfold ua. destruct (Z.leb_spec 0 x), (Z.ltb_spec x (2 ^ w)); simpl; intros H1; inv H1; lia.
Qed.

Lemma ia_ok m w x : - 2 ^ (w - 1) <= x < 2 ^ (w - 1) -> ia m w x = Ok x.
Proof.
  intros H; unfold ia.
  destruct (Z.leb_spec (- 2 ^ (w - 1)) x), (Z.ltb_spec x (2 ^ (w - 1))); simpl; try lia; reflexivity.
Qed.

Lemma sh_amt_ok m w s : 0 <= s < w -> sh_amt m w s = Ok s.
Proof.
  intros H; unfold sh_amt.
  destruct (Z.leb_spec 0 s), (Z.ltb_spec s w); simpl; try lia; reflexivity.
Qed.

Lemma ushl_ok m w x s : 0 <= s < w -> ushl m w x s = Ok ((x * 2 ^ s) mod 2 ^ w).
Proof.
  intros H; unfold ushl; rewrite sh_amt_ok by lia; simpl.
  rewrite Z.shiftl_mul_pow2 by lia; reflexivity.
Qed.

Lemma ushr_ok m w x s : 0 <= s < w -> ushr m w x s = Ok (x / 2 ^ s).
Proof.
  intros H; unfold ushr; rewrite sh_amt_ok by lia; simpl.
  rewrite Z.shiftr_div_pow2 by lia; reflexivity.
Qed.

(** ** Lists *)
Lemma zlen_nonneg {A} (l : list A) : 0 <= zlen l.
Proof. unfold zlen; lia. Qed.

Lemma zlen_app {A} (l k : list A) : zlen (l ++ k) = zlen l + zlen k.
Proof. unfold zlen; rewrite app_length; lia. Qed.

Lemma zlen_cons {A} (x : A) l : zlen (x :: l) = 1 + zlen l.
Proof. unfold zlen; cbn [length]; lia. Qed.

Lemma zlen_nil {A} : zlen (@nil A) = 0.
Proof. reflexivity. Qed.

Lemma zlen_skipn {A} n (l : list A) :
  zlen (skipn n l) = Z.max 0 (zlen l - Z.of_nat n).
Proof. unfold zlen; rewrite skipn_length; lia. Qed.

Lemma zlen_firstn {A} n (l : list A) :
  zlen (firstn n l) = Z.min (Z.of_nat n) (zlen l).
Proof. unfold zlen; rewrite firstn_length; lia. Qed.

(** Default-valued access, used only for stating facts. *)
Definition znth (l : list Z) (i : Z) : Z := nth (Z.to_nat i) l 0.

Lemma nth_error_nth_lt {A} (l : list A) n d :
  (n < length l)%nat -> nth_error l n = Some (nth n l d).
Proof. revert n; induction l; destruct n; simpl; intros; try lia; auto. apply IHl; lia. Qed.

Lemma idx_ok l i : 0 <= i < zlen l -> idx l i = Ok (znth l i).
Proof.
  intros H; unfold idx, zlen, znth in *.
  destruct (Z.leb_spec 0 i); try lia.
  rewrite (nth_error_nth_lt _ _ 0) by lia; reflexivity.
Qed.

Lemma idx_ok_d {A} (d : A) l i : 0 <= i < zlen l -> idx l i = Ok (nth (Z.to_nat i) l d).
Proof.
  intros H; unfold idx, zlen in *.
  destruct (Z.leb_spec 0 i); try lia.
  rewrite (nth_error_nth_lt _ _ d) by lia; reflexivity.
Qed.

Lemma idx_inv {A} (l : list A) i a : idx l i = Ok a -> 0 <= i < zlen l.
Proof.
  unfold idx, zlen. destruct (Z.leb_spec 0 i); try discriminate.
  destruct (nth_error l (Z.to_nat i)) eqn:E; try discriminate. intros _.
  assert (nth_error l (Z.to_nat i) <> None) by congruence.
  apply nth_error_Some in H0; lia.
Qed.

Lemma idx_panic {A} (l : list A) i : ~ (0 <= i < zlen l) -> idx l i = Panic.
Proof.
  unfold idx, zlen; intros H. destruct (Z.leb_spec 0 i); auto.
  destruct (nth_error l (Z.to_nat i)) eqn:E; auto.
  assert (nth_error l (Z.to_nat i) <> None) by congruence.
  apply nth_error_Some in H1; lia.
Qed.

Lemma length_replace_nth {A} n (v : A) l : length (replace_nth n v l) = length l.
Proof. revert n; induction l; destruct n; simpl; auto. Qed.

Lemma zlen_replace_nth {A} n (v : A) l : zlen (replace_nth n v l) = zlen l.
Proof. unfold zlen; now rewrite length_replace_nth. Qed.

Lemma nth_replace_nth {A} n k (v d : A) l :
  (n < length l)%nat ->
  nth k (replace_nth n v l) d = if Nat.eqb k n then v else nth k l d.
Proof.
  revert n k; induction l; intros n k H; simpl in H; [lia|].
  destruct n, k; simpl; auto. apply IHl; lia.
Qed.

Lemma replace_nth_app {A} (l : list A) a k v :
  replace_nth (length l) v (l ++ a :: k) = l ++ v :: k.
Proof. induction l; simpl; congruence. Qed.

Lemma upd_ok {A} (l : list A) i v : 0 <= i < zlen l ->
  upd l i v = Ok (replace_nth (Z.to_nat i) v l).
Proof.
  intros H; unfold upd.
  destruct (Z.leb_spec 0 i), (Z.ltb_spec i (zlen l)); simpl; try lia; auto.
Qed.

Lemma upd_inv {A} (l l' : list A) i v : upd l i v = Ok l' ->
  0 <= i < zlen l /\ l' = replace_nth (Z.to_nat i) v l.
Proof.
  unfold upd.
  destruct (Z.leb_spec 0 i), (Z.ltb_spec i (zlen l)); simpl; intros E; inv E; auto.
Qed.

Lemma slice_ok {A} (l : list A) a b : 0 <= a <= b -> b <= zlen l ->
  slice l a b = Ok (firstn (Z.to_nat (b - a)) (skipn (Z.to_nat a) l)).
Proof.
  intros H H1; unfold slice.
  destruct (Z.leb_spec 0 a), (Z.leb_spec a b), (Z.leb_spec b (zlen l)); simpl; try lia; auto.
Qed.

Lemma slice_from_ok {A} (l : list A) a : 0 <= a <= zlen l ->
  slice_from l a = Ok (skipn (Z.to_nat a) l).
Proof.
  intros H; unfold slice_from.
  destruct (Z.leb_spec 0 a), (Z.leb_spec a (zlen l)); simpl; try lia; auto.
Qed.

Lemma copy_into_ok {A} (l : list A) a src : 0 <= a -> a + zlen src <= zlen l ->
  copy_into l a src = Ok (firstn (Z.to_nat a) l ++ src ++ skipn (Z.to_nat a + length src) l).
Proof.
  intros H H1; unfold copy_into.
  destruct (Z.leb_spec 0 a), (Z.leb_spec (a + zlen src) (zlen l)); simpl; try lia; auto.
Qed.

Lemma znth_skipn l n i : 0 <= i -> znth (skipn n l) i = znth l (Z.of_nat n + i).
Proof.
  intros H. unfold znth. rewrite Z2Nat.inj_add by lia. rewrite Nat2Z.id.
  generalize (Z.to_nat i). clear. intros k. revert l; induction n; intros l; simpl; auto.
  destruct l; simpl; auto. destruct k; auto.
Qed.

Lemma nth_firstn_lt {A} (l : list A) n i d : (i < n)%nat -> nth i (firstn n l) d = nth i l d.
Proof.
  revert l i; induction n; intros l i H; [lia|].
  destruct l; simpl; auto. destruct i; auto. apply IHn; lia.
Qed.

Lemma znth_firstn l n i : 0 <= i < Z.of_nat n -> znth (firstn n l) i = znth l i.
Proof. intros; unfold znth; apply nth_firstn_lt; lia. Qed.

Lemma znth_app1 l k i : 0 <= i < zlen l -> znth (l ++ k) i = znth l i.
Proof. unfold zlen, znth; intros; apply app_nth1; lia. Qed.

Lemma znth_app2 l k i : zlen l <= i -> znth (l ++ k) i = znth k (i - zlen l).
Proof.
  unfold zlen, znth; intros. rewrite app_nth2 by lia. f_equal; lia.
Qed.

Lemma znth_replace l i j v : 0 <= i < zlen l -> 0 <= j ->
  znth (replace_nth (Z.to_nat i) v l) j = if j =? i then v else znth l j.
Proof.
  unfold zlen, znth; intros. rewrite nth_replace_nth by lia.
  destruct (Nat.eqb_spec (Z.to_nat j) (Z.to_nat i)), (Z.eqb_spec j i); auto; lia.
Qed.

Lemma znth_ext (l k : list Z) : zlen l = zlen k ->
  (forall i, 0 <= i < zlen l -> znth l i = znth k i) -> l = k.
Proof.
  unfold zlen, znth; intros H H1. apply nth_ext with (d := 0) (d' := 0); [lia|].
  intros n Hn. specialize (H1 (Z.of_nat n)). rewrite Nat2Z.id in H1. apply H1; lia.
Qed.

Lemma bytes_znth l i : bytes l -> 0 <= znth l i < 256.
Proof.
  intros H. unfold znth. destruct (Nat.ltb_spec (Z.to_nat i) (length l)).
  - unfold bytes in H; rewrite Forall_forall in H; apply H, nth_In; auto.
  - rewrite nth_overflow by lia; lia.
Qed.

Lemma bytes_skipn l n : bytes l -> bytes (skipn n l).
Proof.
  unfold bytes; intros H; rewrite <- (firstn_skipn n l) in H; apply Forall_app in H; tauto.
Qed.

Lemma bytes_firstn l n : bytes l -> bytes (firstn n l).
Proof.
  unfold bytes; intros H; rewrite <- (firstn_skipn n l) in H; apply Forall_app in H; tauto.
Qed.

(** ** Ranges and loops *)
Lemma zseq_map lo n : zseq lo n = map (fun k => lo + Z.of_nat k) (seq 0 n).
Proof.
  revert lo; induction n; intros; cbn [zseq seq map]; auto. rewrite Z.add_0_r, IHn. f_equal.
  rewrite <- seq_shift, map_map. apply map_ext; intros; lia.
Qed.

Lemma zrange_nil lo hi : hi <= lo -> zrange lo hi = [].
Proof. intros; unfold zrange; rewrite ?zseq_map; replace (Z.to_nat (hi - lo)) with O by lia; reflexivity. Qed.

Lemma zrange_cons lo hi : lo < hi -> zrange lo hi = lo :: zrange (lo + 1) hi.
Proof.
  intros; unfold zrange; rewrite ?zseq_map.
  replace (Z.to_nat (hi - lo)) with (S (Z.to_nat (hi - (lo + 1)))) by lia.
  cbn [seq map]. f_equal; [lia|].
  rewrite <- seq_shift, map_map. apply map_ext; intros; lia.
Qed.

Lemma zrange_snoc lo hi : lo <= hi -> zrange lo (hi + 1) = zrange lo hi ++ [hi].
Proof.
  intros; unfold zrange; rewrite ?zseq_map.
  replace (Z.to_nat (hi + 1 - lo)) with (S (Z.to_nat (hi - lo))) by lia.
  rewrite seq_S, map_app; cbn [map]. do 2 f_equal. lia.
Qed.

Lemma zlen_zrange lo hi : zlen (zrange lo hi) = Z.max 0 (hi - lo).
Proof. unfold zlen, zrange; rewrite ?zseq_map; rewrite map_length, seq_length; lia. Qed.

Lemma in_zrange lo hi x : In x (zrange lo hi) <-> lo <= x < hi.
Proof.
  unfold zrange; rewrite ?zseq_map; rewrite in_map_iff; split.
  - intros (k & <- & Hk); apply in_seq in Hk; lia.
  - intros H; exists (Z.to_nat (x - lo)); split; [lia|]; apply in_seq; lia.
Qed.

Lemma znth_zrange lo hi i : 0 <= i < hi - lo -> znth (zrange lo hi) i = lo + i.
Proof.
  intros H. unfold znth, zrange; rewrite ?zseq_map.
  rewrite nth_indep with (d' := lo + Z.of_nat 0) by (rewrite map_length, seq_length; lia).
  rewrite map_nth with (f := fun k => lo + Z.of_nat k). rewrite seq_nth by lia. lia.
Qed.

(** Exhaustive check of a boolean predicate over a finite interval. *)
Definition all_below (n : Z) (p : Z -> bool) : bool := forallb p (zrange 0 n).

Lemma all_below_spec n p : all_below n p = true -> forall x, 0 <= x < n -> p x = true.
Proof.
  unfold all_below; intros H x Hx. rewrite forallb_forall in H; apply H, in_zrange; lia.
Qed.

Lemma for_list_app {A S} (l k : list A) (f : A -> S -> res S) s :
  for_list (l ++ k) f s = let* s' := for_list l f s in for_list k f s'.
Proof.
  revert s; induction l; intros; simpl; auto.
  destruct (f a s); simpl; auto.
Qed.

Lemma for_range_nil {S} lo hi (f : Z -> S -> res S) s : hi <= lo -> for_range lo hi f s = Ok s.
Proof. intros; unfold for_range; rewrite zrange_nil by lia; reflexivity. Qed.

Lemma for_range_cons {S} lo hi (f : Z -> S -> res S) s : lo < hi ->
  for_range lo hi f s = let* s' := f lo s in for_range (lo + 1) hi f s'.
Proof. intros; unfold for_range; rewrite zrange_cons by lia; reflexivity. Qed.

Lemma for_range_snoc {S} lo hi (f : Z -> S -> res S) s : lo <= hi ->
  for_range lo (hi + 1) f s = let* s' := for_range lo hi f s in f hi s'.
Proof.
  intros; unfold for_range; rewrite zrange_snoc, for_list_app by lia.
  destruct (for_list (zrange lo hi) f s); simpl; auto.
  destruct (f hi a); auto.
Qed.

(** Loop rule for a loop every iteration of which succeeds. *)
Lemma for_range_inv {S} (I : Z -> S -> Prop) lo hi (f : Z -> S -> res S) s :
  lo <= hi -> I lo s ->
  (forall i s, lo <= i < hi -> I i s -> exists s', f i s = Ok s' /\ I (i + 1) s') ->
  exists s', for_range lo hi f s = Ok s' /\ I hi s'.
Proof.
  intros Hle H0 Hstep.
  cut (forall n, (n <= Z.to_nat (hi - lo))%nat ->
       exists s', for_range lo (lo + Z.of_nat n) f s = Ok s' /\ I (lo + Z.of_nat n) s').
  { intros H. specialize (H (Z.to_nat (hi - lo)) (Nat.le_refl _)).
    replace (lo + Z.of_nat (Z.to_nat (hi - lo))) with hi in H by lia. exact H. }
  induction n; intros Hn.
  - exists s; rewrite for_range_nil by lia; split; auto. now rewrite Z.add_0_r.
  - destruct IHn as (s' & E & HI); [lia|].
    destruct (Hstep (lo + Z.of_nat n) s') as (s'' & E2 & HI2); [lia|auto|].
    exists s''. replace (lo + Z.of_nat (Datatypes.S n)) with (lo + Z.of_nat n + 1) by lia.
    rewrite for_range_snoc, E by lia; simpl; auto.
Qed.

(** Loop rule for successful runs of loops which may fail. *)
Lemma for_range_ok_inv {S} (I : Z -> S -> Prop) lo hi (f : Z -> S -> res S) s s' :
  lo <= hi -> I lo s ->
  (forall i s s', lo <= i < hi -> I i s -> f i s = Ok s' -> I (i + 1) s') ->
  for_range lo hi f s = Ok s' -> I hi s'.
Proof.
  intros Hle H0 Hstep.
  cut (forall n s', (n <= Z.to_nat (hi - lo))%nat ->
       for_range lo (lo + Z.of_nat n) f s = Ok s' -> I (lo + Z.of_nat n) s').
  { intros H E. specialize (H (Z.to_nat (hi - lo)) s' (Nat.le_refl _)).
    replace (lo + Z.of_nat (Z.to_nat (hi - lo))) with hi in H by lia. auto. }
  clear s'. induction n; intros s' Hn E.
  - rewrite for_range_nil in E by lia. inv E. now rewrite Z.add_0_r.
  - replace (lo + Z.of_nat (Datatypes.S n)) with (lo + Z.of_nat n + 1) in * by lia.
    rewrite for_range_snoc in E by lia.
    apply bind_ok_inv in E as (s1 & E1 & E2).
    eapply Hstep; eauto; [lia|]. apply IHn; auto; lia.
Qed.

Lemma for_range_ext {S} lo hi (f g : Z -> S -> res S) s :
  (forall i s, lo <= i < hi -> f i s = g i s) -> for_range lo hi f s = for_range lo hi g s.
Proof.
  intros H. unfold for_range.
  assert (forall l s, (forall i, In i l -> lo <= i < hi) -> for_list l f s = for_list l g s) as K.
  { induction l; intros; simpl; auto. rewrite H by (apply H0; left; auto).
    destruct (g a s0); simpl; auto. apply IHl; intros; apply H0; right; auto. }
  apply K; intros i; apply in_zrange.
Qed.

(** ** Tabulated lists *)
Definition tab (n : Z) (f : Z -> Z) : list Z := map f (zrange 0 n).

Lemma zlen_tab n f : zlen (tab n f) = Z.max 0 n.
Proof. unfold tab, zlen; rewrite map_length; fold (zlen (zrange 0 n)); rewrite zlen_zrange; lia. Qed.

Lemma tab_snoc n f : 0 <= n -> tab (n + 1) f = tab n f ++ [f n].
Proof. intros; unfold tab; rewrite zrange_snoc, map_app by lia; reflexivity. Qed.

Lemma znth_tab n f i : 0 <= i < n -> znth (tab n f) i = f i.
Proof.
  intros H. unfold znth, tab.
  rewrite nth_indep with (d' := f 0).
  2:{ pose proof (zlen_zrange 0 n) as L; unfold zlen in L; rewrite map_length; lia. }
  rewrite map_nth. f_equal. pose proof (znth_zrange 0 n i) as L; unfold znth in L; rewrite L; lia.
Qed.

Lemma tab_ext n f g : (forall i, 0 <= i < n -> f i = g i) -> tab n f = tab n g.
Proof. intros H; unfold tab; apply map_ext_in; intros i Hi; apply in_zrange in Hi; auto. Qed.

Lemma zlist_as_tab l : l = tab (zlen l) (znth l).
Proof.
  pose proof (zlen_nonneg l).
  apply znth_ext; [rewrite zlen_tab; lia|].
  intros; rewrite znth_tab; auto.
Qed.

Lemma skipn_skipn_1 {A} n (l : list A) (H : (n < length l)%nat) d :
  skipn n l = nth n l d :: skipn (S n) l.
Proof.
  revert l H; induction n; destruct l; simpl; intros; try lia; auto.
  apply IHn; lia.
Qed.

Lemma skipn_step (l : list Z) i : 0 <= i < zlen l ->
  skipn (Z.to_nat i) l = znth l i :: skipn (Z.to_nat (i + 1)) l.
Proof.
  intros H; unfold zlen in H. replace (Z.to_nat (i + 1)) with (S (Z.to_nat i)) by lia.
  unfold znth; apply skipn_skipn_1; lia.
Qed.

Lemma upd_tab f ob i v : 0 <= i < zlen ob -> v = f i ->
  upd (tab i f ++ skipn (Z.to_nat i) ob) i v = Ok (tab (i + 1) f ++ skipn (Z.to_nat (i + 1)) ob).
Proof.
  intros H ->. rewrite upd_ok.
  2:{ rewrite zlen_app, zlen_tab, zlen_skipn. lia. }
  rewrite tab_snoc by lia. rewrite <- app_assoc; cbn [app].
  rewrite (skipn_step ob i) by auto.
  replace (Z.to_nat i) with (length (tab i f)) at 1.
  2:{ pose proof (zlen_tab i f) as L; unfold zlen in L; lia. }
  rewrite replace_nth_app; reflexivity.
Qed.

(** A loop storing [f i] at index [i], threading further state whose value
    before iteration [i] is [g i]. *)
Lemma store_loop {T} (f : Z -> Z) (g : Z -> T) ob n (body : Z -> list Z * T -> res (list Z * T)) :
  0 <= n <= zlen ob ->
  (forall i l, 0 <= i < n -> zlen l = zlen ob ->
     body i (l, g i) = let* l' := upd l i (f i) in Ok (l', g (i + 1))) ->
  for_range 0 n body (ob, g 0) = Ok (tab n f ++ skipn (Z.to_nat n) ob, g n).
Proof.
  intros Hn Hb.
  destruct (for_range_inv (fun i s => s = (tab i f ++ skipn (Z.to_nat i) ob, g i)) 0 n body (ob, g 0))
    as (s' & E & ->); auto; [lia|].
  intros i s Hi ->. eexists; split; eauto.
  rewrite Hb; auto.
  2:{ rewrite zlen_app, zlen_tab, zlen_skipn; lia. }
  rewrite upd_tab by (auto; lia). reflexivity.
Qed.

(** A loop rewriting element [i] as a function [h i] of its old value. *)
Lemma rewrite_loop {T} (h : Z -> Z -> Z) (g : Z -> T) ob n (body : Z -> list Z * T -> res (list Z * T)) :
  0 <= n <= zlen ob ->
  (forall i l, 0 <= i < n -> zlen l = zlen ob -> znth l i = znth ob i ->
     body i (l, g i) = let* l' := upd l i (h i (znth ob i)) in Ok (l', g (i + 1))) ->
  for_range 0 n body (ob, g 0) =
    Ok (tab n (fun i => h i (znth ob i)) ++ skipn (Z.to_nat n) ob, g n).
Proof.
  intros Hn Hb. set (f := fun i => h i (znth ob i)).
  destruct (for_range_inv (fun i s => s = (tab i f ++ skipn (Z.to_nat i) ob, g i)) 0 n body (ob, g 0))
    as (s' & E & ->); auto; [lia|].
  intros i s Hi ->. eexists; split; eauto.
  rewrite Hb; auto.
  - rewrite upd_tab by (auto; lia). reflexivity.
  - rewrite zlen_app, zlen_tab, zlen_skipn; lia.
  - rewrite znth_app2 by (rewrite zlen_tab; lia). rewrite zlen_tab, znth_skipn by lia. f_equal; lia.
Qed.

(** ** Bit operations *)
Lemma shr_div x n : 0 <= n -> Z.shiftr x n = x / 2 ^ n.
Proof. apply Z.shiftr_div_pow2. Qed.

Lemma shl_mul x n : 0 <= n -> Z.shiftl x n = x * 2 ^ n.
Proof. apply Z.shiftl_mul_pow2. Qed.

Lemma land_mask x n : 0 <= n -> Z.land x (2 ^ n - 1) = x mod 2 ^ n.
Proof. intros; rewrite <- Z.land_ones by lia; f_equal; rewrite Z.ones_equiv; lia. Qed.

Lemma lor_add x y n : 0 <= n -> 0 <= y < 2 ^ n -> Z.lor (x * 2 ^ n) y = x * 2 ^ n + y.
Proof.
  intros Hn Hy. rewrite <- Z.shiftl_mul_pow2 by auto.
  assert (Z.land (Z.shiftl x n) y = 0) as D.
  { apply Z.bits_inj'; intros k Hk. rewrite Z.land_spec, Z.bits_0.
    destruct (Z.ltb_spec k n).
    - rewrite Z.shiftl_spec_low by lia; reflexivity.
    - rewrite <- (Z.mod_small y (2 ^ n)) by lia.
      rewrite Z.mod_pow2_bits_high by lia. apply andb_false_r. }
  symmetry. rewrite <- Z.lxor_lor by exact D. apply Z.add_nocarry_lxor; exact D.
Qed.

Lemma lor_add' x y z n : 0 <= n -> z = x * 2 ^ n -> 0 <= y < 2 ^ n -> Z.lor z y = z + y.
Proof. intros Hn -> Hy; apply lor_add; auto. Qed.

Lemma lor_comm_add x y n : 0 <= n -> 0 <= y < 2 ^ n -> Z.lor y (x * 2 ^ n) = y + x * 2 ^ n.
Proof. intros; rewrite Z.lor_comm, lor_add by auto; lia. Qed.

(** Testing, clearing and flipping one bit. *)
Lemma land_pow2 x n : 0 <= n -> Z.land x (2 ^ n) = x / 2 ^ n mod 2 * 2 ^ n.
Proof.
  intros Hn. apply Z.bits_inj'. intros j Hj. rewrite Z.land_spec, Z.pow2_bits_eqb by lia.
  rewrite <- Z.shiftl_mul_pow2, Z.shiftl_spec by lia.
  change 2 with (2 ^ 1) at 2. destruct (Z.eqb_spec n j) as [->|N].
  - rewrite Z.sub_diag, Z.mod_pow2_bits_low, andb_true_r by lia.
    rewrite <- Z.shiftr_div_pow2, Z.shiftr_spec by lia. f_equal; lia.
  - rewrite andb_false_r. destruct (Z.lt_ge_cases j n).
    + rewrite Z.testbit_neg_r by lia. auto.
    + rewrite Z.mod_pow2_bits_high by lia. auto.
Qed.
Lemma lxor_pow2 x n : 0 <= n -> Z.lxor x (2 ^ n) = if x / 2 ^ n mod 2 =? 0 then x + 2 ^ n else x - 2 ^ n.
Proof.
  intros Hn. pose proof (land_pow2 x n Hn) as L. pose proof (Z.mod_pos_bound (x / 2 ^ n) 2 ltac:(lia)).
  destruct (Z.eqb_spec (x / 2 ^ n mod 2) 0) as [E|E].
  - rewrite E, Z.mul_0_l in L. symmetry. apply Z.add_nocarry_lxor, L.
  - assert (x / 2 ^ n mod 2 = 1) as E1 by lia. rewrite E1, Z.mul_1_l in L.
    rewrite Z.sub_nocarry_ldiff.
    + apply Z.bits_inj'. intros j Hj. rewrite Z.lxor_spec, Z.ldiff_spec.
      pose proof (f_equal (fun z => Z.testbit z j) L) as B. cbv beta in B. rewrite Z.land_spec in B.
      destruct (Z.testbit x j), (Z.testbit (2 ^ n) j); auto; discriminate.
    + apply Z.bits_inj'. intros j Hj. rewrite Z.ldiff_spec, Z.bits_0.
      pose proof (f_equal (fun z => Z.testbit z j) L) as B. cbv beta in B. rewrite Z.land_spec in B.
      destruct (Z.testbit x j), (Z.testbit (2 ^ n) j); auto; discriminate.
Qed.
