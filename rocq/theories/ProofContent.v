(** * Proofs about the pictures the ETC formats can store. *)
From Verif Require Import Base BaseLemmas ModelColor SpecImage SpecBc SpecEtc SpecCut ProofCut SpecEncode ProofEncode ProofEncodeBc SpecTranspose ProofTranspose ProofTransposeEtc SpecContent.

Lemma exactly_composed raw tex dec (pattern : (Z -> Z) -> Prop) : image_decoder 4 4 raw tex dec -> 0 < raw ->
  (forall b, bytes b -> zlen b = raw -> exists f, pattern f /\ forall t, 0 <= t < 16 -> tex b t = f t) ->
  (forall f, pattern f -> exists b, bytes b /\ zlen b = raw /\ forall t, 0 <= t < 16 -> tex b t = f t) ->
  composes_exactly raw pattern dec.
Proof.
  intros HD Hraw H1 H2 w h pic Hw Hh HZ HA. split.
  - intros HS. apply (store 4 4 raw (fun _ => True) tex dec w h pic (decodes_all _ _ _ _ _ HD) ltac:(lia) ltac:(lia) Hraw Hw Hh HZ HA).
    intros bx by_ Hx Hy. destruct (HS bx by_) as (f & Hf & Hc); try lia; try (apply block_pos; lia).
    destruct (H2 f Hf) as (b & B & L & T). exists b. split; [exact B|]. split; [exact L|]. split; [exact I|]. intros x y Hx' Hy' Ex Ey.
    rewrite T by (clear; Z.to_euclidean_division_equations; lia).
    rewrite Hc by (assumption || lia || (clear - Ex Ey; Z.to_euclidean_division_equations; lia)). f_equal. clear - Ex Ey; Z.to_euclidean_division_equations; lia.
  - intros data image image' B H4 E S bx by_ Hx Hy Px Py.
    destruct (decodes_done 4 4 raw (fun _ => True) tex dec data w h image image' (decodes_all _ _ _ _ _ HD)) as (R & RI & _ & PP & _); [unfold sized; repeat split; try assumption; lia|intros k Hk; exact I|exact E|].
    pose proof (blocks_above w 4 (4 * bx) ltac:(lia) ltac:(lia)) as X1. pose proof (blocks_above h 4 (4 * by_) ltac:(lia) ltac:(lia)) as Y1.
    rewrite (Z.mul_comm 4 bx), Z.div_mul in X1 by lia. rewrite (Z.mul_comm 4 by_), Z.div_mul in Y1 by lia.
    pose proof (below_product by_ bx (blocks h 4) (blocks w 4) Y1 X1) as K.
    assert (zlen (block_bytes raw (by_ * blocks w 4 + bx) data) = raw) as L.
    { unfold block_bytes. rewrite zlen_firstn, zlen_skipn.
      assert (0 <= raw * (by_ * blocks w 4 + bx)) by (apply Z.mul_nonneg_nonneg; lia).
      pose proof (Z.mul_le_mono_nonneg_r (by_ * blocks w 4 + bx + 1) (blocks h 4 * blocks w 4) raw ltac:(lia) ltac:(lia)). rewrite !Z2Nat.id by lia. lia. }
    destruct (H1 (block_bytes raw (by_ * blocks w 4 + bx) data)) as (f & Hf & Hc); [unfold block_bytes; apply bytes_firstn, bytes_skipn, B|exact L|].
    exists f. split; [exact Hf|]. intros x y Ix Iy Lx Ly. rewrite <- S by lia. rewrite PP by lia.
    replace (y / 4) with by_ by (clear - Iy; Z.to_euclidean_division_equations; lia).
    replace (x / 4) with bx by (clear - Ix; Z.to_euclidean_division_equations; lia). rewrite Hc by (clear; Z.to_euclidean_division_equations; lia).
    f_equal. clear - Ix Iy; Z.to_euclidean_division_equations; lia.
Qed.

(** ** Numbers put together of fields *)
Fixpoint pack (l : list (nat * Z)) : Z := match l with [] => 0 | (n, v) :: r => v + 2 ^ Z.of_nat n * pack r end.
Fixpoint width (l : list (nat * Z)) : nat := match l with [] => O | (n, _) :: r => (n + width r)%nat end.
Definition packable (l : list (nat * Z)) : Prop := Forall (fun e => 0 <= snd e < 2 ^ Z.of_nat (fst e)) l.
(** [k] bits from bit [b]. *)
Fixpoint get (l : list (nat * Z)) (b k : nat) : Z :=
  match k with
  | O => 0
  | _ => match l with
         | [] => 0
         | (n, v) :: r => if (n <=? b)%nat then get r (b - n) k else v + 2 ^ Z.of_nat n * get r 0 (k - n)
         end
  end.
Fixpoint aligned (l : list (nat * Z)) (b k : nat) : bool :=
  match k with
  | O => true
  | _ => match l with
         | [] => true
         | (n, v) :: r => if (n <=? b)%nat then aligned r (b - n) k else (b =? 0)%nat && (n <=? k)%nat && aligned r 0 (k - n)
         end
  end.
Lemma pack_range l : packable l -> 0 <= pack l < 2 ^ Z.of_nat (width l).
Proof.
  induction l as [|[n v] r IH]; intros H; [cbn; lia|]. inversion H as [|? ? H0 HR]; subst. specialize (IH HR). cbn [pack width fst snd] in *.
  rewrite Nat2Z.inj_add, Z.pow_add_r by lia. set (N := 2 ^ Z.of_nat n) in *. set (W := 2 ^ Z.of_nat (width r)) in *. clearbody N W.
  assert (N * pack r <= N * (W - 1)) by (apply Z.mul_le_mono_nonneg_l; lia). assert (0 <= N * pack r) by (apply Z.mul_nonneg_nonneg; lia). lia.
Qed.
Lemma get_ok l : packable l -> forall b k, aligned l b k = true -> pack l / 2 ^ Z.of_nat b mod 2 ^ Z.of_nat k = get l b k.
Proof.
  induction l as [|[n v] r IH]; intros H b k A.
  { cbn [pack get]. rewrite Z.div_0_l by (apply Z.pow_nonzero; lia). rewrite Z.mod_0_l by (apply Z.pow_nonzero; lia). destruct k; reflexivity. }
  inversion H as [|? ? H0 HR]; subst. specialize (IH HR). cbn [pack fst snd] in *.
  destruct k as [|k']. { cbn [get]. change (2 ^ Z.of_nat 0) with 1. apply Z.mod_1_r. }
  cbn [get aligned] in *. set (k := S k') in *. clearbody k. destruct (Nat.leb_spec n b) as [Hn|Hn].
  - rewrite <- (IH (b - n)%nat k A). replace (Z.of_nat b) with (Z.of_nat n + Z.of_nat (b - n)) by lia. rewrite Z.pow_add_r by lia.
    rewrite <- Z.div_div by (try (apply Z.pow_pos_nonneg; lia); apply Z.pow_nonzero; lia).
    rewrite (Z.mul_comm (2 ^ Z.of_nat n) (pack r)), Z.div_add by (apply Z.pow_nonzero; lia). rewrite (Z.div_small v) by exact H0. reflexivity.
  - apply andb_prop in A. destruct A as [A A2]. apply andb_prop in A. destruct A as [A0 A1]. apply Nat.eqb_eq in A0. apply Nat.leb_le in A1. subst b.
    specialize (IH 0%nat (k - n)%nat A2). change (2 ^ Z.of_nat 0) with 1 in *. rewrite Z.div_1_r in *. rewrite <- IH.
    replace (Z.of_nat k) with (Z.of_nat n + Z.of_nat (k - n)) by lia. rewrite Z.pow_add_r by lia.
    assert (0 < 2 ^ Z.of_nat n) as P1 by lia. assert (0 < 2 ^ Z.of_nat (k - n)) as P2 by (apply Z.pow_pos_nonneg; lia).
    rewrite Z.rem_mul_r by lia. rewrite (Z.mul_comm (2 ^ Z.of_nat n) (pack r)), Z.mod_add, (Z.mod_small v), Z.div_add, (Z.div_small v) by lia. reflexivity.
Qed.
Lemma field_get l hi lo b k : packable l -> Z.of_nat b = lo -> Z.of_nat k = hi - lo + 1 -> aligned l b k = true -> field (pack l) hi lo = get l b k.
Proof. intros H <- Ek A. unfold field. rewrite <- Ek. apply get_ok; assumption. Qed.
Lemma pack_cons n v r : pack ((n, v) :: r) = v + 2 ^ Z.of_nat n * pack r. Proof. reflexivity. Qed.

(** Reads all fields of packed words in the goal. *)
Ltac read V := repeat match goal with |- context [field (pack ?l) ?hi ?lo] =>
  let b := eval compute in (Z.to_nat lo) in let k := eval compute in (Z.to_nat (hi - lo + 1)) in
  rewrite (field_get l hi lo b k V eq_refl eq_refl eq_refl); cbv [get Nat.leb Nat.sub] end.
Ltac channels ch := let H := fresh in assert (ch = 0 \/ ch = 1 \/ ch = 2) as H by lia; destruct H as [-> | [-> | ->]].

(** ** Index bits *)
Definition low_of (i : Z -> Z) : Z := number_of 2 (tab 32 (fun p => if p <? 16 then i (across p) mod 2 else i (across (p - 16)) / 2)).
Lemma low_of_bits i : choice_below 4 i -> Forall (fun d => 0 <= d < 2) (tab 32 (fun p => if p <? 16 then i (across p) mod 2 else i (across (p - 16)) / 2)).
Proof.
  intros H. apply Forall_forall. intros v Hv. unfold tab in Hv. apply in_map_iff in Hv. destruct Hv as (p & <- & Hp). cbv beta. apply in_zrange in Hp.
  destruct (Z.ltb_spec p 16); [apply Z.mod_pos_bound; lia|]. specialize (H (across (p - 16)) ltac:(apply across_range; lia)). clear - H; Z.to_euclidean_division_equations; lia.
Qed.
Lemma low_of_range i : choice_below 4 i -> 0 <= low_of i < 2 ^ 32.
Proof. intros H. unfold low_of. rewrite number_same. exact (number_bound 2 _ ltac:(lia) (low_of_bits i H)). Qed.
Lemma index_low i r t : choice_below 4 i -> 0 <= t < 16 -> etc_index (pack ((32%nat, low_of i) :: r)) t = i t.
Proof.
  intros H Ht. pose proof (low_of_range i H) as R. pose proof (across_range t Ht) as Ha. unfold etc_index. change pixel with across.
  assert (forall p, 0 <= p < 32 -> field (pack ((32%nat, low_of i) :: r)) p p = znth (tab 32 (fun p => if p <? 16 then i (across p) mod 2 else i (across (p - 16)) / 2)) p) as F.
  { intros p Hp. rewrite <- (mod_field 32) by lia. rewrite pack_cons. change (Z.of_nat 32) with 32. rewrite (Z.mul_comm (2 ^ 32) (pack r)), Z.mod_add, (Z.mod_small (low_of i)) by lia.
    unfold field. replace (p - p + 1) with 1 by ring. change (2 ^ 1) with 2. unfold low_of. rewrite number_same. apply number_digit; [lia|apply low_of_bits, H|exact Hp]. }
  rewrite !F by lia. rewrite !znth_tab by lia. rewrite (proj2 (Z.ltb_ge (16 + across t) 16)), (proj2 (Z.ltb_lt (across t) 16)) by lia. replace (16 + across t - 16) with (across t) by ring.
  rewrite (across_twice t Ht). specialize (H t Ht). clear - H; Z.to_euclidean_division_equations; lia.
Qed.
Lemma etc_index_range w t : 0 <= etc_index w t < 4.
Proof. unfold etc_index. pose proof (bit_range w (16 + pixel t)). pose proof (bit_range w (pixel t)). lia. Qed.

(** ** Halves *)
Definition bit (b : bool) : Z := if b then 1 else 0.
Lemma bit_bound b : 0 <= bit b < 2. Proof. destruct b; cbn; lia. Qed.
Lemma sub_half w t : 0 <= t < 16 -> etc_sub w t = bit (second_half (negb (field w 32 32 =? 0)) t).
Proof.
  intros Ht. unfold etc_sub, second_half, bit. destruct (field w 32 32 =? 0); cbn [negb].
  - destruct (Z.leb_spec 2 (t mod 4)); clear - Ht H; Z.to_euclidean_division_equations; lia.
  - destruct (Z.leb_spec 8 t); clear - Ht H; Z.to_euclidean_division_equations; lia.
Qed.
Lemma halves_same modifier above c1 c1' c2 c2' k1 k2 i i' t : (forall ch, 0 <= ch < 3 -> c1 ch = c1' ch) -> (forall ch, 0 <= ch < 3 -> c2 ch = c2' ch) -> i t = i' t ->
  halves modifier above c1 c2 k1 k2 i t = halves modifier above c1' c2' k1 k2 i' t.
Proof. intros H1 H2 E. unfold halves. rewrite E. destruct (second_half above t); apply rgb_same; assumption. Qed.
Lemma halves_of modifier w (base : Z -> Z -> Z) t : 0 <= t < 16 ->
  add_rgb (base (etc_sub w t)) (modifier (etc_codeword w (etc_sub w t)) (etc_index w t)) 255 =
  halves modifier (negb (field w 32 32 =? 0)) (base 0) (base 1) (field w 39 37) (field w 36 34) (etc_index w) t.
Proof. intros Ht. rewrite sub_half by exact Ht. unfold halves, etc_codeword. destruct (second_half _ t); reflexivity. Qed.

Definition indiv_list (above : bool) (c1 c2 : Z -> Z) (k1 k2 : Z) (i : Z -> Z) : list (nat * Z) :=
  [(32%nat, low_of i); (1%nat, bit above); (1%nat, 0); (3%nat, k2); (3%nat, k1); (4%nat, c2 2); (4%nat, c1 2); (4%nat, c2 1); (4%nat, c1 1); (4%nat, c2 0); (4%nat, c1 0)].
Definition diff_list (op above : bool) (c1 c2 : Z -> Z) (k1 k2 : Z) (i : Z -> Z) : list (nat * Z) :=
  [(32%nat, low_of i); (1%nat, bit above); (1%nat, bit op); (3%nat, k2); (3%nat, k1); (3%nat, (c2 2 - c1 2) mod 8); (5%nat, c1 2); (3%nat, (c2 1 - c1 1) mod 8); (5%nat, c1 1); (3%nat, (c2 0 - c1 0) mod 8); (5%nat, c1 0)].
Ltac packs := repeat (apply Forall_cons; [cbn [fst snd]; first [apply low_of_range; assumption|apply bit_bound|apply Z.mod_pos_bound; lia|change (2 ^ Z.of_nat 1) with 2; change (2 ^ Z.of_nat 2) with 4; change (2 ^ Z.of_nat 3) with 8; change (2 ^ Z.of_nat 4) with 16; change (2 ^ Z.of_nat 5) with 32; first [lia|Z.to_euclidean_division_equations; lia]]|]); apply Forall_nil.
Lemma indiv_packs above c1 c2 k1 k2 i : colour_below 16 c1 -> colour_below 16 c2 -> 0 <= k1 < 8 -> 0 <= k2 < 8 -> choice_below 4 i -> packable (indiv_list above c1 c2 k1 k2 i).
Proof. intros H1 H2 K1 K2 Hi. pose proof (H1 0). pose proof (H1 1). pose proof (H1 2). pose proof (H2 0). pose proof (H2 1). pose proof (H2 2). unfold packable, indiv_list. packs. Qed.
Lemma diff_packs op above c1 c2 k1 k2 i : colour_below 32 c1 -> 0 <= k1 < 8 -> 0 <= k2 < 8 -> choice_below 4 i -> packable (diff_list op above c1 c2 k1 k2 i).
Proof. intros H1 K1 K2 Hi. pose proof (H1 0). pose proof (H1 1). pose proof (H1 2). unfold packable, diff_list. packs. Qed.
Ltac tidy := change (2 ^ Z.of_nat 1) with 2 in *; change (2 ^ Z.of_nat 2) with 4 in *; change (2 ^ Z.of_nat 3) with 8 in *; change (2 ^ Z.of_nat 4) with 16 in *; change (2 ^ Z.of_nat 5) with 32 in *;
  change (2 ^ Z.of_nat 6) with 64 in *; change (2 ^ Z.of_nat 7) with 128 in *; change (2 ^ Z.of_nat 32) with 4294967296 in *.
Lemma bit_back b : negb (bit b =? 0) = b. Proof. destruct b; reflexivity. Qed.
Lemma indiv_made above c1 c2 k1 k2 i : colour_below 16 c1 -> colour_below 16 c2 -> 0 <= k1 < 8 -> 0 <= k2 < 8 -> choice_below 4 i ->
  let w := pack (indiv_list above c1 c2 k1 k2 i) in
  etc_diff w = false /\ forall t, 0 <= t < 16 -> etc_indiv_texel w t = halves etc_modifier above (fun ch => rep4 (c1 ch)) (fun ch => rep4 (c2 ch)) k1 k2 i t.
Proof.
  intros H1 H2 K1 K2 Hi w. pose proof (indiv_packs above c1 c2 k1 k2 i H1 H2 K1 K2 Hi) as V. subst w. unfold indiv_list in *.
  assert (field (pack (indiv_list above c1 c2 k1 k2 i)) 32 32 = bit above) as E32 by (unfold indiv_list; read V; tidy; lia).
  assert (field (pack (indiv_list above c1 c2 k1 k2 i)) 39 37 = k1) as E39 by (unfold indiv_list; read V; tidy; lia).
  assert (field (pack (indiv_list above c1 c2 k1 k2 i)) 36 34 = k2) as E36 by (unfold indiv_list; read V; tidy; lia). unfold indiv_list in E32, E39, E36.
  split; [unfold etc_diff; read V; reflexivity|]. intros t Ht. unfold etc_indiv_texel. rewrite (halves_of etc_modifier _ (indiv_base _) t Ht), E32, E39, E36, bit_back.
  apply halves_same; [| |apply index_low; assumption]; intros ch Hc; unfold indiv_base; cbn [Z.eqb]; f_equal; channels ch;
    match goal with |- field _ ?a ?b = _ => let a' := eval compute in a in let b' := eval compute in b in change a with a'; change b with b' end; read V; tidy; lia.
Qed.
Lemma signed_back d : -4 <= d <= 3 -> signed3 (d mod 8) = d.
Proof. intros H. unfold signed3. destruct (Z.leb_spec 4 (d mod 8)); Z.to_euclidean_division_equations; lia. Qed.
Lemma signed_range v : 0 <= v < 8 -> -4 <= signed3 v <= 3. Proof. intros H. unfold signed3. destruct (Z.leb_spec 4 v); lia. Qed.
Lemma signed_round a b : 0 <= b < 32 -> (b - a + 4) mod 32 < 8 -> (a + signed3 ((b - a) mod 8)) mod 32 = b.
Proof. intros Hb H. unfold signed3. destruct (Z.leb_spec 4 ((b - a) mod 8)); Z.to_euclidean_division_equations; lia. Qed.
Lemma diff_read op above c1 c2 k1 k2 i : colour_below 32 c1 -> 0 <= k1 < 8 -> 0 <= k2 < 8 -> choice_below 4 i ->
  let w := pack (diff_list op above c1 c2 k1 k2 i) in
  etc_diff w = op /\ field w 32 32 = bit above /\ field w 39 37 = k1 /\ field w 36 34 = k2 /\ (forall t, 0 <= t < 16 -> etc_index w t = i t) /\
  forall ch, 0 <= ch < 3 -> base5 w ch = c1 ch /\ second5 w ch = c1 ch + signed3 ((c2 ch - c1 ch) mod 8).
Proof.
  intros H1 K1 K2 Hi w. pose proof (diff_packs op above c1 c2 k1 k2 i H1 K1 K2 Hi) as V. subst w. unfold diff_list in *.
  split; [unfold etc_diff; read V; destruct op; reflexivity|]. split; [read V; tidy; lia|]. split; [read V; tidy; lia|]. split; [read V; tidy; lia|].
  split; [intros t Ht; apply index_low; assumption|]. intros ch Hc. unfold second5, base5, delta3.
  channels ch; cbn [Z.mul Z.sub Z.add Z.opp Pos.mul Pos.add Pos.succ Z.pos_sub Pos.pred_double Z.succ_double Z.pred_double Z.double]; read V; tidy; (split; [lia|f_equal; [lia|f_equal; lia]]).
Qed.

(** ** T, H and planar blocks: the free bits decide whether a channel overflows. *)
Definition over_top (a b : Z) : Z := if 4 <=? a + b then 7 else 0.
Definition over_sign (a b : Z) : Z := if 4 <=? a + b then 0 else 1.
Lemma over_bound a b : 0 <= over_top a b < 8 /\ 0 <= over_sign a b < 2.
Proof. unfold over_top, over_sign. destruct (4 <=? a + b); lia. Qed.
Lemma over_made a b : 0 <= a < 4 -> 0 <= b < 4 -> let s := a + 4 * over_top a b + signed3 (b + 4 * over_sign a b) in ((s <? 0) || (31 <? s))%bool = true.
Proof.
  intros Ha Hb s. subst s. unfold over_top, over_sign, signed3. destruct (Z.leb_spec 4 (a + b)).
  - replace (b + 4 * 0) with b by ring. destruct (Z.leb_spec 4 b); [lia|]. apply orb_true_iff. right. apply Z.ltb_lt. lia.
  - destruct (Z.leb_spec 4 (b + 4 * 1)); [|lia]. apply orb_true_iff. left. apply Z.ltb_lt. lia.
Qed.
Definition keep_top (a d : Z) : Z := if a + signed3 d <? 0 then 1 else 0.
Lemma keep_bound a d : 0 <= keep_top a d < 2. Proof. unfold keep_top. destruct (_ <? 0); lia. Qed.
Lemma keep_made a d : 0 <= a < 16 -> 0 <= d < 8 -> let s := a + 16 * keep_top a d + signed3 d in ((s <? 0) || (31 <? s))%bool = false.
Proof.
  intros Ha Hd s. subst s. pose proof (signed_range d Hd). unfold keep_top. destruct (Z.ltb_spec (a + signed3 d) 0); apply orb_false_iff; split; apply Z.ltb_ge; lia.
Qed.
Definition t_list (op : bool) (c1 c2 : Z -> Z) (d : Z) (i : Z -> Z) : list (nat * Z) :=
  [(32%nat, low_of i); (1%nat, d mod 2); (1%nat, bit op); (2%nat, d / 2); (4%nat, c2 2); (4%nat, c2 1); (4%nat, c2 0); (4%nat, c1 2); (4%nat, c1 1);
   (2%nat, c1 0 mod 4); (1%nat, over_sign (c1 0 / 4) (c1 0 mod 4)); (2%nat, c1 0 / 4); (3%nat, over_top (c1 0 / 4) (c1 0 mod 4))].
Definition h_list (op : bool) (c1 c2 : Z -> Z) (d : Z) (i : Z -> Z) : list (nat * Z) :=
  let a := 2 * (c1 1 mod 2) + c1 2 / 8 in let b := c1 2 / 2 mod 4 in
  [(32%nat, low_of i); (1%nat, d / 2 mod 2); (1%nat, bit op); (1%nat, d / 4); (4%nat, c2 2); (4%nat, c2 1); (4%nat, c2 0);
   (1%nat, c1 2 mod 2); (2%nat, b); (1%nat, over_sign a b); (1%nat, c1 2 / 8); (1%nat, c1 1 mod 2); (3%nat, over_top a b);
   (3%nat, c1 1 / 2); (4%nat, c1 0); (1%nat, keep_top (c1 0) (c1 1 / 2))].
Definition planar_list (op : bool) (o h v : Z -> Z) : list (nat * Z) :=
  let a := o 2 / 8 mod 4 in let b := o 2 / 2 mod 4 in let g := o 2 / 32 + 2 * (o 1 mod 4) in let r := o 1 / 64 + 2 * (o 0 mod 4) in
  [(6%nat, v 2); (7%nat, v 1); (6%nat, v 0); (6%nat, h 2); (7%nat, h 1); (1%nat, h 0 mod 2); (1%nat, bit op); (5%nat, h 0 / 2);
   (1%nat, o 2 mod 2); (2%nat, b); (1%nat, over_sign a b); (2%nat, a); (3%nat, over_top a b); (1%nat, o 2 / 32);
   (2%nat, o 1 mod 4); (4%nat, o 1 / 4 mod 16); (1%nat, keep_top (o 1 / 4 mod 16) g); (1%nat, o 1 / 64);
   (2%nat, o 0 mod 4); (4%nat, o 0 / 4); (1%nat, keep_top (o 0 / 4) r)].
Ltac pack1 := cbn [fst snd]; first [apply low_of_range; assumption|apply bit_bound|apply over_bound|apply keep_bound|apply Z.mod_pos_bound; lia|tidy; first [lia|match goal with |- context [?a / ?b] => pose proof (Z.div_mod a b ltac:(lia)); pose proof (Z.mod_pos_bound a b ltac:(lia)); lia end]].
Ltac packs2 := repeat (apply Forall_cons; [pack1|]); apply Forall_nil.
Lemma t_packs op c1 c2 d i : colour_below 16 c1 -> colour_below 16 c2 -> 0 <= d < 8 -> choice_below 4 i -> packable (t_list op c1 c2 d i).
Proof. intros H1 H2 D Hi. pose proof (H1 0 ltac:(lia)). pose proof (H1 1 ltac:(lia)). pose proof (H1 2 ltac:(lia)). pose proof (H2 0 ltac:(lia)). pose proof (H2 1 ltac:(lia)). pose proof (H2 2 ltac:(lia)). unfold packable, t_list. packs2. Qed.
Lemma h_packs op c1 c2 d i : colour_below 16 c1 -> colour_below 16 c2 -> 0 <= d < 8 -> choice_below 4 i -> packable (h_list op c1 c2 d i).
Proof. intros H1 H2 D Hi. pose proof (H1 0 ltac:(lia)). pose proof (H1 1 ltac:(lia)). pose proof (H1 2 ltac:(lia)). pose proof (H2 0 ltac:(lia)). pose proof (H2 1 ltac:(lia)). pose proof (H2 2 ltac:(lia)). unfold packable, h_list. cbv zeta. packs2. Qed.
Lemma planar_packs op o h v : colour676 o -> colour676 h -> colour676 v -> packable (planar_list op o h v).
Proof. intros (O0 & O1 & O2) (H0 & H1 & H2) (V0 & V1 & V2). unfold packable, planar_list. cbv zeta. packs2. Qed.

Lemma second_red w : second5 w 0 = field w 63 59 + signed3 (field w 58 56). Proof. reflexivity. Qed.
Lemma second_green w : second5 w 1 = field w 55 51 + signed3 (field w 50 48). Proof. reflexivity. Qed.
Lemma second_blue w : second5 w 2 = field w 47 43 + signed3 (field w 42 40). Proof. reflexivity. Qed.
Lemma t_made op c1 c2 d i : colour_below 16 c1 -> colour_below 16 c2 -> 0 <= d < 8 -> choice_below 4 i ->
  let w := pack (t_list op c1 c2 d i) in
  etc_diff w = op /\ overflows w 0 = true /\ (forall t, 0 <= t < 16 -> etc_index w t = i t) /\
  forall t, 0 <= t < 16 -> t_texel w t = t_colours (fun ch => rep4 (c1 ch)) (fun ch => rep4 (c2 ch)) d (i t).
Proof.
  intros H1 H2 D Hi w. pose proof (t_packs op c1 c2 d i H1 H2 D Hi) as V. subst w.
  pose proof (H1 0 ltac:(lia)) as B0. assert (0 <= c1 0 / 4 < 4 /\ 0 <= c1 0 mod 4 < 4) as [M1 M2] by (clear - B0; Z.to_euclidean_division_equations; lia).
  assert (forall t, 0 <= t < 16 -> etc_index (pack (t_list op c1 c2 d i)) t = i t) as EI by (intros t Ht; apply index_low; assumption).
  assert (forall ch, 0 <= ch < 3 -> t_base1 (pack (t_list op c1 c2 d i)) ch = rep4 (c1 ch)) as E1.
  { intros ch Hc. unfold t_base1. f_equal. unfold t_list in *. channels ch; cbn [Z.eqb Pos.eqb]; read V; tidy; try lia. pose proof (Z.div_mod (c1 0) 4 ltac:(lia)). lia. }
  assert (forall ch, 0 <= ch < 3 -> t_base2 (pack (t_list op c1 c2 d i)) ch = rep4 (c2 ch)) as E2.
  { intros ch Hc. unfold t_base2. f_equal. unfold t_list in *. channels ch; cbn [Z.eqb Pos.eqb]; read V; tidy; lia. }
  assert (t_distance (pack (t_list op c1 c2 d i)) = znth etc_distance d) as ED.
  { unfold t_distance. f_equal. unfold t_list in *. read V; tidy. pose proof (Z.div_mod d 2 ltac:(lia)). lia. }
  split; [unfold etc_diff, t_list in *; read V; destruct op; reflexivity|]. split.
  - unfold overflows. replace (second5 (pack (t_list op c1 c2 d i)) 0) with (c1 0 / 4 + 4 * over_top (c1 0 / 4) (c1 0 mod 4) + signed3 (c1 0 mod 4 + 4 * over_sign (c1 0 / 4) (c1 0 mod 4))); [apply (over_made _ _ M1 M2)|].
    first [rewrite second_red|rewrite second_green|rewrite second_blue]. unfold t_list in *. read V; tidy. f_equal; [lia|f_equal; lia].
  - split; [exact EI|]. intros t Ht. unfold t_texel, t_colours. rewrite EI by exact Ht. rewrite ED. destruct (i t =? 0); [apply rgb_same, E1|]. destruct (i t =? 1); [apply rgb_same, E2|]. destruct (i t =? 2); apply rgb_same, E2.
Qed.
Lemma h_made op c1 c2 d i : colour_below 16 c1 -> colour_below 16 c2 -> 0 <= d < 8 -> h_order c1 c2 d -> choice_below 4 i ->
  let w := pack (h_list op c1 c2 d i) in
  etc_diff w = op /\ overflows w 0 = false /\ overflows w 1 = true /\ (forall t, 0 <= t < 16 -> etc_index w t = i t) /\
  forall t, 0 <= t < 16 -> h_texel w t = h_colours (fun ch => rep4 (c1 ch)) (fun ch => rep4 (c2 ch)) d (i t).
Proof.
  intros H1 H2 D O Hi w. pose proof (h_packs op c1 c2 d i H1 H2 D Hi) as V. subst w.
  pose proof (H1 0 ltac:(lia)) as B0. pose proof (H1 1 ltac:(lia)) as B1. pose proof (H1 2 ltac:(lia)) as B2.
  assert (0 <= 2 * (c1 1 mod 2) + c1 2 / 8 < 4) as M1 by (clear - B1 B2; Z.to_euclidean_division_equations; lia).
  assert (0 <= c1 2 / 2 mod 4 < 4) as M2 by (apply Z.mod_pos_bound; lia). assert (0 <= c1 1 / 2 < 8) as M3 by (clear - B1; Z.to_euclidean_division_equations; lia).
  assert (forall t, 0 <= t < 16 -> etc_index (pack (h_list op c1 c2 d i)) t = i t) as EI by (intros t Ht; apply index_low; assumption).
  assert (forall ch, 0 <= ch < 3 -> h_color1 (pack (h_list op c1 c2 d i)) ch = c1 ch) as E1.
  { intros ch Hc. unfold h_color1. unfold h_list in *. cbv zeta in *. channels ch; cbn [Z.eqb Pos.eqb]; read V; tidy; try lia.
    - pose proof (Z.div_mod (c1 1) 2 ltac:(lia)). lia.
    - clear - B2. Z.to_euclidean_division_equations; lia. }
  assert (forall ch, 0 <= ch < 3 -> h_color2 (pack (h_list op c1 c2 d i)) ch = c2 ch) as E2.
  { intros ch Hc. unfold h_color2. unfold h_list in *. cbv zeta in *. channels ch; cbn [Z.eqb Pos.eqb]; read V; tidy; lia. }
  assert (h_distance (pack (h_list op c1 c2 d i)) = znth etc_distance d) as ED.
  { unfold h_distance. f_equal. unfold h_value at 1 2. rewrite (E1 0), (E1 1), (E1 2), (E2 0), (E2 1), (E2 2) by lia. fold (h_value c1) (h_value c2).
    unfold h_list in *. cbv zeta in *. read V; tidy. unfold h_order in O. destruct (Z.leb_spec (h_value c2) (h_value c1)) as [L|L].
    - apply O in L. clear - D L. Z.to_euclidean_division_equations; lia.
    - assert (d mod 2 <> 1) as N by (intros E; apply O in E; lia). clear - D N. Z.to_euclidean_division_equations; lia. }
  split; [unfold etc_diff, h_list in *; cbv zeta in *; read V; destruct op; reflexivity|]. split; [|split; [|split; [exact EI|]]].
  - unfold overflows. replace (second5 (pack (h_list op c1 c2 d i)) 0) with (c1 0 + 16 * keep_top (c1 0) (c1 1 / 2) + signed3 (c1 1 / 2)); [apply (keep_made _ _ B0 M3)|].
    first [rewrite second_red|rewrite second_green|rewrite second_blue]. unfold h_list in *. cbv zeta in *. read V; tidy. f_equal; [lia|f_equal; lia].
  - unfold overflows. pose proof (over_made _ _ M1 M2) as OM. cbv zeta in OM. rewrite <- OM. replace (second5 (pack (h_list op c1 c2 d i)) 1) with
     (2 * (c1 1 mod 2) + c1 2 / 8 + 4 * over_top (2 * (c1 1 mod 2) + c1 2 / 8) (c1 2 / 2 mod 4) + signed3 (c1 2 / 2 mod 4 + 4 * over_sign (2 * (c1 1 mod 2) + c1 2 / 8) (c1 2 / 2 mod 4))); [reflexivity|].
    first [rewrite second_red|rewrite second_green|rewrite second_blue]. unfold h_list in *. cbv zeta in *. read V; tidy. f_equal; [lia|f_equal; lia].
  - intros t Ht. unfold h_texel, h_colours. rewrite EI by exact Ht. rewrite ED. specialize (Hi t Ht). assert (i t = 0 \/ i t = 1 \/ i t = 2 \/ i t = 3) as C by lia.
    destruct C as [-> | [-> | [-> | ->]]]; cbn [Z.eqb Z.ltb Z.compare Pos.compare Pos.compare_cont orb Z.modulo Z.div_eucl Z.pos_div_eucl Pos.eqb];
      apply rgb_same; intros ch Hc; cbv beta; f_equal; first [apply E1; exact Hc|apply E2; exact Hc].
Qed.
Lemma planar_made op o h v : colour676 o -> colour676 h -> colour676 v ->
  let w := pack (planar_list op o h v) in
  etc_diff w = op /\ overflows w 0 = false /\ overflows w 1 = false /\ overflows w 2 = true /\
  forall t, 0 <= t < 16 -> planar_texel w t = plane (wide676 o) (wide676 h) (wide676 v) t.
Proof.
  intros (O0 & O1 & O2) (H0 & H1 & H2) (V0 & V1 & V2) w. pose proof (planar_packs op o h v (conj O0 (conj O1 O2)) (conj H0 (conj H1 H2)) (conj V0 (conj V1 V2))) as V. subst w.
  assert (0 <= o 2 / 8 mod 4 < 4 /\ 0 <= o 2 / 2 mod 4 < 4) as [M1 M2] by (split; apply Z.mod_pos_bound; lia).
  assert (0 <= o 2 / 32 + 2 * (o 1 mod 4) < 8 /\ 0 <= o 1 / 64 + 2 * (o 0 mod 4) < 8) as [M3 M4] by (clear - O0 O1 O2; Z.to_euclidean_division_equations; lia).
  assert (0 <= o 1 / 4 mod 16 < 16 /\ 0 <= o 0 / 4 < 16) as [M5 M6] by (clear - O0; Z.to_euclidean_division_equations; lia).
  assert (forall ch, 0 <= ch < 3 -> planar_origin (pack (planar_list op o h v)) ch = wide676 o ch) as EO.
  { intros ch Hc. unfold planar_origin, wide676, planar_list in *. cbv zeta in *. channels ch; cbn [Z.eqb Pos.eqb]; f_equal; read V; tidy.
    - pose proof (Z.div_mod (o 0) 4 ltac:(lia)). lia.
    - clear - O1. Z.to_euclidean_division_equations; lia.
    - clear - O2. Z.to_euclidean_division_equations; lia. }
  assert (forall ch, 0 <= ch < 3 -> planar_horiz (pack (planar_list op o h v)) ch = wide676 h ch) as EH.
  { intros ch Hc. unfold planar_horiz, wide676, planar_list in *. cbv zeta in *. channels ch; cbn [Z.eqb Pos.eqb]; f_equal; read V; tidy; try lia. pose proof (Z.div_mod (h 0) 2 ltac:(lia)). lia. }
  assert (forall ch, 0 <= ch < 3 -> planar_vert (pack (planar_list op o h v)) ch = wide676 v ch) as EV.
  { intros ch Hc. unfold planar_vert, wide676, planar_list in *. cbv zeta in *. channels ch; cbn [Z.eqb Pos.eqb]; f_equal; read V; tidy; lia. }
  split; [unfold etc_diff, planar_list in *; cbv zeta in *; read V; destruct op; reflexivity|]. split; [|split; [|split]].
  - unfold overflows. pose proof (keep_made _ _ M6 M4) as K. cbv zeta in K. rewrite <- K. replace (second5 (pack (planar_list op o h v)) 0) with
      (o 0 / 4 + 16 * keep_top (o 0 / 4) (o 1 / 64 + 2 * (o 0 mod 4)) + signed3 (o 1 / 64 + 2 * (o 0 mod 4))); [reflexivity|].
    first [rewrite second_red|rewrite second_green|rewrite second_blue]. unfold planar_list in *. cbv zeta in *. read V; tidy. f_equal; [lia|f_equal; lia].
  - unfold overflows. pose proof (keep_made _ _ M5 M3) as K. cbv zeta in K. rewrite <- K. replace (second5 (pack (planar_list op o h v)) 1) with
      (o 1 / 4 mod 16 + 16 * keep_top (o 1 / 4 mod 16) (o 2 / 32 + 2 * (o 1 mod 4)) + signed3 (o 2 / 32 + 2 * (o 1 mod 4))); [reflexivity|].
    first [rewrite second_red|rewrite second_green|rewrite second_blue]. unfold planar_list in *. cbv zeta in *. read V; tidy. f_equal; [lia|f_equal; lia].
  - unfold overflows. pose proof (over_made _ _ M1 M2) as K. cbv zeta in K. rewrite <- K. replace (second5 (pack (planar_list op o h v)) 2) with
      (o 2 / 8 mod 4 + 4 * over_top (o 2 / 8 mod 4) (o 2 / 2 mod 4) + signed3 (o 2 / 2 mod 4 + 4 * over_sign (o 2 / 8 mod 4) (o 2 / 2 mod 4))); [reflexivity|].
    first [rewrite second_red|rewrite second_green|rewrite second_blue]. unfold planar_list in *. cbv zeta in *. read V; tidy. f_equal; [lia|f_equal; lia].
  - intros t Ht. unfold planar_texel, plane, planar_value. rewrite !EO, !EH, !EV by lia. reflexivity.
Qed.

(** ** What the blocks of given data look like *)
Lemma bit_bool v : 0 <= v < 2 -> bit (negb (v =? 0)) = v.
Proof. intros H. assert (v = 0 \/ v = 1) as [-> | ->] by lia; reflexivity. Qed.
Lemma field3 w a b : a = b + 2 -> 0 <= field w a b < 8. Proof. intros ->. pose proof (field_bound w (b + 2) b ltac:(lia)) as H. replace (b + 2 - b + 1) with 3 in H by ring. exact H. Qed.
Lemma field4 w a b : a = b + 3 -> 0 <= field w a b < 16. Proof. intros ->. pose proof (field_bound w (b + 3) b ltac:(lia)) as H. replace (b + 3 - b + 1) with 4 in H by ring. exact H. Qed.
Lemma field5 w a b : a = b + 4 -> 0 <= field w a b < 32. Proof. intros ->. pose proof (field_bound w (b + 4) b ltac:(lia)) as H. replace (b + 4 - b + 1) with 5 in H by ring. exact H. Qed.
Lemma field2 w a b : a = b + 1 -> 0 <= field w a b < 4. Proof. intros ->. pose proof (field_bound w (b + 1) b ltac:(lia)) as H. replace (b + 1 - b + 1) with 2 in H by ring. exact H. Qed.
Lemma field6 w a b : a = b + 5 -> 0 <= field w a b < 64. Proof. intros ->. pose proof (field_bound w (b + 5) b ltac:(lia)) as H. replace (b + 5 - b + 1) with 6 in H by ring. exact H. Qed.
Lemma field7 w a b : a = b + 6 -> 0 <= field w a b < 128. Proof. intros ->. pose proof (field_bound w (b + 6) b ltac:(lia)) as H. replace (b + 6 - b + 1) with 7 in H by ring. exact H. Qed.
Lemma choices_of w : choice_below 4 (etc_index w). Proof. intros t _. apply etc_index_range. Qed.
Lemma second_range w ch : base5 w ch - 4 <= second5 w ch <= base5 w ch + 3.
Proof. unfold second5, delta3. pose proof (signed_range _ (field3 w (58 - 8 * ch) (56 - 8 * ch) ltac:(lia))). lia. Qed.

Lemma individual_of w : individual (etc_indiv_texel w).
Proof.
  exists (negb (field w 32 32 =? 0)), (fun ch => field w (63 - 8 * ch) (60 - 8 * ch)), (fun ch => field w (59 - 8 * ch) (56 - 8 * ch)), (field w 39 37), (field w 36 34), (etc_index w).
  split; [intros ch _; apply field4; lia|]. split; [intros ch _; apply field4; lia|]. split; [apply field3; lia|]. split; [apply field3; lia|]. split; [apply choices_of|].
  intros t Ht. exact (halves_of etc_modifier w (indiv_base w) t Ht).
Qed.
Lemma close_of w : overflows w 0 = false -> overflows w 1 = false -> overflows w 2 = false -> colour_below 32 (second5 w) /\ close (base5 w) (second5 w).
Proof.
  intros A B C. split; intros ch Hc.
  - assert (overflows w ch = false) as O by (channels ch; assumption). unfold overflows in O. apply orb_false_iff in O. destruct O as [O1 O2]. apply Z.ltb_ge in O1, O2. lia.
  - pose proof (second_range w ch). lia.
Qed.
Lemma differential_of w : overflows w 0 = false -> overflows w 1 = false -> overflows w 2 = false -> differential close (etc_diff_texel w).
Proof.
  intros A B C. destruct (close_of w A B C) as [R N]. exists (negb (field w 32 32 =? 0)), (base5 w), (second5 w), (field w 39 37), (field w 36 34), (etc_index w).
  split; [intros ch _; apply field5; lia|]. split; [exact R|]. split; [exact N|]. split; [apply field3; lia|]. split; [apply field3; lia|]. split; [apply choices_of|].
  intros t Ht. exact (halves_of etc_modifier w (diff_base w) t Ht).
Qed.
Lemma round_of w : differential close_round (fun t => add_rgb (wrap_base w (etc_sub w t)) (etc_modifier (etc_codeword w (etc_sub w t)) (etc_index w t)) 255).
Proof.
  exists (negb (field w 32 32 =? 0)), (base5 w), (fun ch => second5 w ch mod 32), (field w 39 37), (field w 36 34), (etc_index w).
  split; [intros ch _; apply field5; lia|]. split; [intros ch _; apply Z.mod_pos_bound; lia|].
  split; [intros ch _; pose proof (second_range w ch) as H; clear - H; Z.to_euclidean_division_equations; lia|].
  split; [apply field3; lia|]. split; [apply field3; lia|]. split; [apply choices_of|].
  intros t Ht. exact (halves_of etc_modifier w (wrap_base w) t Ht).
Qed.
Definition t_first (w ch : Z) : Z := if ch =? 0 then 4 * field w 60 59 + field w 57 56 else if ch =? 1 then field w 55 52 else field w 51 48.
Definition t_second (w ch : Z) : Z := if ch =? 0 then field w 47 44 else if ch =? 1 then field w 43 40 else field w 39 36.
Lemma t_parts w : colour_below 16 (t_first w) /\ colour_below 16 (t_second w) /\ 0 <= 2 * field w 35 34 + field w 32 32 < 8 /\
  forall t, t_texel w t = t_colours (fun ch => rep4 (t_first w ch)) (fun ch => rep4 (t_second w ch)) (2 * field w 35 34 + field w 32 32) (etc_index w t).
Proof.
  split; [|split; [|split]].
  - intros ch Hc. unfold t_first. channels ch; cbn [Z.eqb Pos.eqb]; [|apply field4; lia|apply field4; lia]. pose proof (field2 w 60 59 ltac:(lia)). pose proof (field2 w 57 56 ltac:(lia)). lia.
  - intros ch Hc. unfold t_second. channels ch; cbn [Z.eqb Pos.eqb]; apply field4; lia.
  - pose proof (field2 w 35 34 ltac:(lia)). pose proof (bit_range w 32). lia.
  - intros t. unfold t_texel, t_colours, t_distance. destruct (etc_index w t =? 0); [reflexivity|]. destruct (etc_index w t =? 1); [reflexivity|]. destruct (etc_index w t =? 2); reflexivity.
Qed.
Lemma t_of w : t_pattern (t_texel w).
Proof. destruct (t_parts w) as (A & B & C & D). exists (t_first w), (t_second w), (2 * field w 35 34 + field w 32 32), (etc_index w). split; [exact A|]. split; [exact B|]. split; [exact C|]. split; [apply choices_of|]. intros t _. apply D. Qed.
Definition h_number (w : Z) : Z := 4 * field w 34 34 + 2 * field w 32 32 + (if h_value (h_color2 w) <=? h_value (h_color1 w) then 1 else 0).
Lemma h_parts w : colour_below 16 (h_color1 w) /\ colour_below 16 (h_color2 w) /\ 0 <= h_number w < 8 /\ h_order (h_color1 w) (h_color2 w) (h_number w) /\
  forall t, h_texel w t = h_colours (fun ch => rep4 (h_color1 w ch)) (fun ch => rep4 (h_color2 w ch)) (h_number w) (etc_index w t).
Proof.
  pose proof (bit_range w 34). pose proof (bit_range w 32). split; [|split; [|split; [|split]]].
  - intros ch Hc. unfold h_color1. channels ch; cbn [Z.eqb Pos.eqb]; [apply field4; lia| |].
    + pose proof (field3 w 58 56 ltac:(lia)). pose proof (bit_range w 52). lia.
    + pose proof (field3 w 49 47 ltac:(lia)). pose proof (bit_range w 51). lia.
  - intros ch Hc. unfold h_color2. channels ch; cbn [Z.eqb Pos.eqb]; apply field4; lia.
  - unfold h_number. destruct (_ <=? _); lia.
  - unfold h_order, h_number. set (a := field w 34 34) in *. set (b := field w 32 32) in *. clearbody a b. destruct (Z.leb_spec (h_value (h_color2 w)) (h_value (h_color1 w))) as [L|L].
    + split; [intros _; exact L|intros _]. clear - H H0. Z.to_euclidean_division_equations; lia.
    + split; [|lia]. intros E. exfalso. clear - H H0 E. Z.to_euclidean_division_equations; lia.
  - intros t. unfold h_texel, h_colours. change (h_distance w) with (znth etc_distance (h_number w)). pose proof (etc_index_range w t) as R. set (k := etc_index w t) in *. clearbody k.
    assert (k = 0 \/ k = 1 \/ k = 2 \/ k = 3) as C by lia. destruct C as [-> | [-> | [-> | ->]]]; reflexivity.
Qed.
Lemma h_of w : h_pattern (h_texel w).
Proof. destruct (h_parts w) as (A & B & C & O & D). exists (h_color1 w), (h_color2 w), (h_number w), (etc_index w). split; [exact A|]. split; [exact B|]. split; [exact C|]. split; [exact O|]. split; [apply choices_of|]. intros t _. apply D. Qed.
Lemma planar_of w : planar_pattern (planar_texel w).
Proof.
  exists (fun ch => if ch =? 0 then field w 62 57 else if ch =? 1 then 64 * field w 56 56 + field w 54 49 else 32 * field w 48 48 + 8 * field w 44 43 + field w 41 39),
    (fun ch => if ch =? 0 then 2 * field w 38 34 + field w 32 32 else if ch =? 1 then field w 31 25 else field w 24 19),
    (fun ch => if ch =? 0 then field w 18 13 else if ch =? 1 then field w 12 6 else field w 5 0).
  unfold colour676. cbn [Z.eqb Pos.eqb]. split; [split; [|split]|split; [split; [|split]|split; [split; [|split]|]]].
  - apply field6; lia.
  - pose proof (bit_range w 56). pose proof (field6 w 54 49 ltac:(lia)). lia.
  - pose proof (bit_range w 48). pose proof (field2 w 44 43 ltac:(lia)). pose proof (field3 w 41 39 ltac:(lia)). lia.
  - pose proof (field5 w 38 34 ltac:(lia)). pose proof (bit_range w 32). lia.
  - apply field7; lia.
  - apply field6; lia.
  - apply field6; lia.
  - apply field7; lia.
  - apply field6; lia.
  - intros t _. unfold planar_texel, planar_value, plane, planar_origin, planar_horiz, planar_vert, wide676. cbn [Z.eqb Pos.eqb]. reflexivity.
Qed.

(** ** The formats *)
Lemma word_packed l : packable l -> width l = 64%nat -> let b := word_bytes (pack l) in bytes b /\ zlen b = 8 /\ etc_word b 0 = pack l.
Proof. intros V W. destruct (word_bytes_ok (pack l)) as [A B]. split; [exact A|]. split; [exact B|]. apply word_back. pose proof (pack_range l V) as R. rewrite W in R. exact R. Qed.
Lemma round_made op above c1 c2 k1 k2 i : colour_below 32 c1 -> colour_below 32 c2 -> close_round c1 c2 -> 0 <= k1 < 8 -> 0 <= k2 < 8 -> choice_below 4 i ->
  let w := pack (diff_list op above c1 c2 k1 k2 i) in forall t, 0 <= t < 16 ->
  add_rgb (wrap_base w (etc_sub w t)) (etc_modifier (etc_codeword w (etc_sub w t)) (etc_index w t)) 255 = halves etc_modifier above (fun ch => rep5 (c1 ch)) (fun ch => rep5 (c2 ch)) k1 k2 i t.
Proof.
  intros H1 H2 N K1 K2 Hi w t Ht. destruct (diff_read op above c1 c2 k1 k2 i H1 K1 K2 Hi) as (_ & E32 & E39 & E36 & EI & EC). fold w in E32, E39, E36, EI, EC.
  rewrite (halves_of etc_modifier w (wrap_base w) t Ht), E32, E39, E36, bit_back. apply halves_same; [| |apply EI, Ht]; intros ch Hc; unfold wrap_base; cbn [Z.eqb]; f_equal; destruct (EC ch Hc) as [A B]; [exact A|].
  rewrite B. apply signed_round; [apply H2, Hc|apply N, Hc].
Qed.
Lemma close_made op above c1 c2 k1 k2 i : colour_below 32 c1 -> colour_below 32 c2 -> close c1 c2 -> 0 <= k1 < 8 -> 0 <= k2 < 8 -> choice_below 4 i ->
  let w := pack (diff_list op above c1 c2 k1 k2 i) in (forall ch, 0 <= ch < 3 -> overflows w ch = false) /\ forall modifier t, 0 <= t < 16 ->
  add_rgb (diff_base w (etc_sub w t)) (modifier (etc_codeword w (etc_sub w t)) (etc_index w t)) 255 = halves modifier above (fun ch => rep5 (c1 ch)) (fun ch => rep5 (c2 ch)) k1 k2 i t.
Proof.
  intros H1 H2 N K1 K2 Hi w. destruct (diff_read op above c1 c2 k1 k2 i H1 K1 K2 Hi) as (_ & E32 & E39 & E36 & EI & EC). fold w in E32, E39, E36, EI, EC.
  assert (forall ch, 0 <= ch < 3 -> second5 w ch = c2 ch) as ES. { intros ch Hc. destruct (EC ch Hc) as [_ ->]. rewrite (signed_back (c2 ch - c1 ch)) by (apply N, Hc). ring. }
  split.
  - intros ch Hc. unfold overflows. rewrite (ES ch Hc). specialize (H2 ch Hc). apply orb_false_iff. split; apply Z.ltb_ge; lia.
  - intros modifier t Ht. rewrite (halves_of modifier w (diff_base w) t Ht), E32, E39, E36, bit_back. apply halves_same; [| |apply EI, Ht]; intros ch Hc; unfold diff_base; cbn [Z.eqb]; f_equal; [apply EC, Hc|apply ES, Hc].
Qed.
Lemma close_round_of c1 c2 : close c1 c2 -> close_round c1 c2.
Proof. intros H ch Hc. specialize (H ch Hc). set (d := c2 ch - c1 ch) in *. clearbody d. Z.to_euclidean_division_equations; lia. Qed.

Lemma etc1_looks b : bytes b -> zlen b = 8 -> exists f, etc1_pattern f /\ forall t, 0 <= t < 16 -> etc1_wrap_texel b t = f t.
Proof.
  intros _ _. exists (etc1_wrap_texel b). split; [|reflexivity]. unfold etc1_pattern, etc1_wrap_texel. destruct (etc_diff (etc_word b 0)); [right; apply round_of|left; apply individual_of].
Qed.
Lemma etc1_stored f : etc1_pattern f -> exists b, bytes b /\ zlen b = 8 /\ forall t, 0 <= t < 16 -> etc1_wrap_texel b t = f t.
Proof.
  intros [(above & c1 & c2 & k1 & k2 & i & H1 & H2 & K1 & K2 & Hi & E)|(above & c1 & c2 & k1 & k2 & i & H1 & H2 & N & K1 & K2 & Hi & E)].
  - destruct (word_packed _ (indiv_packs above c1 c2 k1 k2 i H1 H2 K1 K2 Hi) eq_refl) as (B & L & W). eexists. split; [exact B|]. split; [exact L|].
    intros t Ht. unfold etc1_wrap_texel. rewrite W. cbv zeta. destruct (indiv_made above c1 c2 k1 k2 i H1 H2 K1 K2 Hi) as [D T]. rewrite D, T, E by exact Ht. reflexivity.
  - destruct (word_packed _ (diff_packs true above c1 c2 k1 k2 i H1 K1 K2 Hi) eq_refl) as (B & L & W). eexists. split; [exact B|]. split; [exact L|].
    intros t Ht. unfold etc1_wrap_texel. rewrite W. cbv zeta. destruct (diff_read true above c1 c2 k1 k2 i H1 K1 K2 Hi) as [D _]. rewrite D, E by exact Ht. apply round_made; assumption.
Qed.
Lemma etc2_looks b o : etc2_pattern (etc2_texel b o).
Proof.
  unfold etc2_pattern, etc2_texel. destruct (etc_diff (etc_word b o)); cbn [negb]; [right|left; apply individual_of].
  destruct (overflows (etc_word b o) 0) eqn:A; [right; left; apply t_of|]. destruct (overflows (etc_word b o) 1) eqn:B; [right; right; left; apply h_of|].
  destruct (overflows (etc_word b o) 2) eqn:C; [right; right; right; apply planar_of|]. left. apply differential_of; assumption.
Qed.
Lemma etc2_stored f : etc2_pattern f -> exists b, bytes b /\ zlen b = 8 /\ forall t, 0 <= t < 16 -> etc2_texel b 0 t = f t.
Proof.
  intros [(above & c1 & c2 & k1 & k2 & i & H1 & H2 & K1 & K2 & Hi & E)|[(above & c1 & c2 & k1 & k2 & i & H1 & H2 & N & K1 & K2 & Hi & E)|[(c1 & c2 & d & i & H1 & H2 & D & Hi & E)|[(c1 & c2 & d & i & H1 & H2 & D & O & Hi & E)|(o & h & v & Ho & Hh & Hv & E)]]]].
  - destruct (word_packed _ (indiv_packs above c1 c2 k1 k2 i H1 H2 K1 K2 Hi) eq_refl) as (B & L & W). eexists. split; [exact B|]. split; [exact L|].
    intros t Ht. unfold etc2_texel. rewrite W. cbv zeta. destruct (indiv_made above c1 c2 k1 k2 i H1 H2 K1 K2 Hi) as [D T]. rewrite D, E by exact Ht. cbn [negb]. apply T, Ht.
  - destruct (word_packed _ (diff_packs true above c1 c2 k1 k2 i H1 K1 K2 Hi) eq_refl) as (B & L & W). eexists. split; [exact B|]. split; [exact L|].
    intros t Ht. unfold etc2_texel. rewrite W. cbv zeta. destruct (diff_read true above c1 c2 k1 k2 i H1 K1 K2 Hi) as [D _]. destruct (close_made true above c1 c2 k1 k2 i H1 H2 N K1 K2 Hi) as [NO T].
    rewrite D, !NO, E by (exact Ht || lia). cbn [negb]. exact (T etc_modifier t Ht).
  - destruct (word_packed _ (t_packs true c1 c2 d i H1 H2 D Hi) eq_refl) as (B & L & W). eexists. split; [exact B|]. split; [exact L|].
    intros t Ht. unfold etc2_texel. rewrite W. cbv zeta. destruct (t_made true c1 c2 d i H1 H2 D Hi) as (F & A0 & _ & T). rewrite F, A0, E by exact Ht. cbn [negb]. apply T, Ht.
  - destruct (word_packed _ (h_packs true c1 c2 d i H1 H2 D Hi) eq_refl) as (B & L & W). eexists. split; [exact B|]. split; [exact L|].
    intros t Ht. unfold etc2_texel. rewrite W. cbv zeta. destruct (h_made true c1 c2 d i H1 H2 D O Hi) as (F & A0 & A1 & _ & T). rewrite F, A0, A1, E by exact Ht. cbn [negb]. apply T, Ht.
  - destruct (word_packed _ (planar_packs true o h v Ho Hh Hv) eq_refl) as (B & L & W). eexists. split; [exact B|]. split; [exact L|].
    intros t Ht. unfold etc2_texel. rewrite W. cbv zeta. destruct (planar_made true o h v Ho Hh Hv) as (F & A0 & A1 & A2 & T). rewrite F, A0, A1, A2, E by exact Ht. cbn [negb]. apply T, Ht.
Qed.

(** ** Punch-through alpha *)
Lemma clear_t w : t_clear (cleared (etc_index w) (t_texel w)).
Proof.
  destruct (t_parts w) as (H1 & H2 & H3 & T). exists (t_first w), (t_second w), (2 * field w 35 34 + field w 32 32), (etc_index w). repeat (split; [assumption || apply choices_of|]).
  intros t _. unfold cleared. rewrite T. reflexivity.
Qed.
Lemma clear_h w : h_clear (cleared (etc_index w) (h_texel w)).
Proof.
  destruct (h_parts w) as (H1 & H2 & H3 & O & T). exists (h_color1 w), (h_color2 w), (h_number w), (etc_index w). repeat (split; [assumption || apply choices_of|]).
  intros t _. unfold cleared. rewrite T. reflexivity.
Qed.
Definition half_texel (w t : Z) : Z := add_rgb (diff_base w (etc_sub w t)) (etc2a_modifier false (etc_codeword w (etc_sub w t)) (etc_index w t)) 255.
Lemma clear_half w : overflows w 0 = false -> overflows w 1 = false -> overflows w 2 = false -> differential_clear (cleared (etc_index w) (half_texel w)).
Proof.
  intros A B C. destruct (close_of w A B C) as [R N]. exists (negb (field w 32 32 =? 0)), (base5 w), (second5 w), (field w 39 37), (field w 36 34), (etc_index w).
  split; [intros ch _; apply field5; lia|]. split; [exact R|]. split; [exact N|]. split; [apply field3; lia|]. split; [apply field3; lia|]. split; [apply choices_of|].
  intros t Ht. unfold cleared, half_texel. rewrite (halves_of (etc2a_modifier false) w (diff_base w) t Ht). reflexivity.
Qed.
Lemma etc2a_looks b : bytes b -> zlen b = 8 -> exists f, etc2a_pattern f /\ forall t, 0 <= t < 16 -> etc2a_code_texel b t = f t.
Proof.
  intros _ _. unfold etc2a_code_texel, etc2a_clear, etc2a_color. generalize (etc_word b 0). intros w. cbv zeta.
  destruct (etc_diff w) eqn:OP.
  - destruct (overflows w 0) eqn:A; [exists (t_texel w); split; [left; right; left; apply t_of|reflexivity]|].
    destruct (overflows w 1) eqn:B; [exists (h_texel w); split; [left; right; right; left; apply h_of|reflexivity]|].
    destruct (overflows w 2) eqn:C; [exists (planar_texel w); split; [left; right; right; right; apply planar_of|reflexivity]|].
    exists (etc_diff_texel w). split; [left; left; exact (differential_of w A B C)|]. intros t _. unfold etc_diff_texel, etc2a_modifier. cbn [negb andb]. reflexivity.
  - destruct (overflows w 0) eqn:A; [exists (cleared (etc_index w) (t_texel w)); split; [right; right; left; apply clear_t|intros t _; cbn [negb andb orb]; rewrite andb_true_r; reflexivity]|].
    destruct (overflows w 1) eqn:B; [exists (cleared (etc_index w) (h_texel w)); split; [right; right; right; apply clear_h|intros t _; cbn [negb andb orb]; rewrite andb_true_r; reflexivity]|].
    destruct (overflows w 2) eqn:C; [exists (planar_texel w); split; [left; right; right; right; apply planar_of|intros t _; cbn [negb andb orb]; rewrite andb_false_r; reflexivity]|].
    exists (cleared (etc_index w) (half_texel w)). split; [right; left; apply clear_half; assumption|]. intros t _. unfold cleared, half_texel. cbn [negb andb orb]. rewrite andb_true_r. reflexivity.
Qed.
Lemma etc2a_stored f : etc2a_pattern f -> exists b, bytes b /\ zlen b = 8 /\ forall t, 0 <= t < 16 -> etc2a_code_texel b t = f t.
Proof.
  intros [[(above & c1 & c2 & k1 & k2 & i & H1 & H2 & N & K1 & K2 & Hi & E)|[(c1 & c2 & d & i & H1 & H2 & D & Hi & E)|[(c1 & c2 & d & i & H1 & H2 & D & O & Hi & E)|(o & h & v & Ho & Hh & Hv & E)]]]|
    [(above & c1 & c2 & k1 & k2 & i & H1 & H2 & N & K1 & K2 & Hi & E)|[(c1 & c2 & d & i & H1 & H2 & D & Hi & E)|(c1 & c2 & d & i & H1 & H2 & D & O & Hi & E)]]].
  - destruct (word_packed _ (diff_packs true above c1 c2 k1 k2 i H1 K1 K2 Hi) eq_refl) as (B & L & W). eexists. split; [exact B|]. split; [exact L|].
    intros t Ht. unfold etc2a_code_texel, etc2a_clear, etc2a_color. rewrite W. cbv zeta. destruct (diff_read true above c1 c2 k1 k2 i H1 K1 K2 Hi) as [F _]. destruct (close_made true above c1 c2 k1 k2 i H1 H2 N K1 K2 Hi) as [NO T].
    rewrite F, !NO, E by (exact Ht || lia). cbn [negb andb]. exact (T etc_modifier t Ht).
  - destruct (word_packed _ (t_packs true c1 c2 d i H1 H2 D Hi) eq_refl) as (B & L & W). eexists. split; [exact B|]. split; [exact L|].
    intros t Ht. unfold etc2a_code_texel, etc2a_clear, etc2a_color. rewrite W. cbv zeta. destruct (t_made true c1 c2 d i H1 H2 D Hi) as (F & A0 & _ & T). rewrite F, A0, E by exact Ht. cbn [negb andb]. apply T, Ht.
  - destruct (word_packed _ (h_packs true c1 c2 d i H1 H2 D Hi) eq_refl) as (B & L & W). eexists. split; [exact B|]. split; [exact L|].
    intros t Ht. unfold etc2a_code_texel, etc2a_clear, etc2a_color. rewrite W. cbv zeta. destruct (h_made true c1 c2 d i H1 H2 D O Hi) as (F & A0 & A1 & _ & T). rewrite F, A0, A1, E by exact Ht. cbn [negb andb]. apply T, Ht.
  - destruct (word_packed _ (planar_packs true o h v Ho Hh Hv) eq_refl) as (B & L & W). eexists. split; [exact B|]. split; [exact L|].
    intros t Ht. unfold etc2a_code_texel, etc2a_clear, etc2a_color. rewrite W. cbv zeta. destruct (planar_made true o h v Ho Hh Hv) as (F & A0 & A1 & A2 & T). rewrite F, A0, A1, A2, E by exact Ht. cbn [negb andb]. apply T, Ht.
  - destruct (word_packed _ (diff_packs false above c1 c2 k1 k2 i H1 K1 K2 Hi) eq_refl) as (B & L & W). eexists. split; [exact B|]. split; [exact L|].
    intros t Ht. unfold etc2a_code_texel, etc2a_clear, etc2a_color. rewrite W. cbv zeta. destruct (diff_read false above c1 c2 k1 k2 i H1 K1 K2 Hi) as (F & _ & _ & _ & EI & _). destruct (close_made false above c1 c2 k1 k2 i H1 H2 N K1 K2 Hi) as [NO T].
    rewrite F, !NO, E by (exact Ht || lia). cbn [negb andb orb]. rewrite andb_true_r. rewrite (T (etc2a_modifier false) t Ht), EI by exact Ht. reflexivity.
  - destruct (word_packed _ (t_packs false c1 c2 d i H1 H2 D Hi) eq_refl) as (B & L & W). eexists. split; [exact B|]. split; [exact L|].
    intros t Ht. unfold etc2a_code_texel, etc2a_clear, etc2a_color. rewrite W. cbv zeta. destruct (t_made false c1 c2 d i H1 H2 D Hi) as (F & A0 & EI & T). rewrite F, A0, E by exact Ht. cbn [negb andb orb]. rewrite andb_true_r, EI, T by exact Ht. reflexivity.
  - destruct (word_packed _ (h_packs false c1 c2 d i H1 H2 D Hi) eq_refl) as (B & L & W). eexists. split; [exact B|]. split; [exact L|].
    intros t Ht. unfold etc2a_code_texel, etc2a_clear, etc2a_color. rewrite W. cbv zeta. destruct (h_made false c1 c2 d i H1 H2 D O Hi) as (F & A0 & A1 & EI & T). rewrite F, A0, A1, E by exact Ht. cbn [negb andb orb]. rewrite andb_true_r, EI, T by exact Ht. reflexivity.
Qed.

(** ** Alpha *)
Definition eac_low (i : Z -> Z) : Z := number_of 8 (tab 16 (fun d => i (across (15 - d)))).
Lemma eac_digits i : choice_below 8 i -> Forall (fun d => 0 <= d < 8) (tab 16 (fun d => i (across (15 - d)))).
Proof. intros H. apply Forall_forall. intros v Hv. unfold tab in Hv. apply in_map_iff in Hv. destruct Hv as (p & <- & Hp). apply in_zrange in Hp. apply H, across_range. lia. Qed.
Lemma eac_low_range i : choice_below 8 i -> 0 <= eac_low i < 2 ^ 48.
Proof. intros H. unfold eac_low. rewrite number_same. exact (number_bound 8 _ ltac:(lia) (eac_digits i H)). Qed.
Definition eac_list (base mult table : Z) (i : Z -> Z) : list (nat * Z) := [(48%nat, eac_low i); (4%nat, table); (4%nat, mult); (8%nat, base)].
Lemma eac_packs base mult table i : 0 <= base < 256 -> 0 <= mult < 16 -> 0 <= table < 16 -> choice_below 8 i -> packable (eac_list base mult table i).
Proof. intros B M T H. repeat (apply Forall_cons; [cbn [fst snd]; first [apply eac_low_range; assumption|change (2 ^ Z.of_nat 8) with 256; tidy; lia]|]); apply Forall_nil. Qed.
Lemma alpha_stored a : alpha_pattern a -> exists b, bytes b /\ zlen b = 8 /\ forall t, 0 <= t < 16 -> eac_alpha b 0 t = a t.
Proof.
  intros (base & mult & table & i & B & M & T & Hi & E). pose proof (eac_packs base mult table i B M T Hi) as V. destruct (word_packed _ V eq_refl) as (Bb & L & W). eexists. split; [exact Bb|]. split; [exact L|].
  intros t Ht. unfold eac_alpha. rewrite W, E by exact Ht. cbv zeta.
  assert (eac_index (pack (eac_list base mult table i)) t = i t) as EI.
  { rewrite eac_digit by exact Ht. pose proof (across_range t Ht) as Ha. unfold eac_list. rewrite pack_cons. change (2 ^ Z.of_nat 48) with (8 ^ 16). set (r := pack _). clearbody r.
    replace (8 ^ 16) with (8 ^ (across t) * 8 * 8 ^ (15 - across t)) by (replace 8 with (8 ^ 1) at 2 by reflexivity; rewrite <- !Z.pow_add_r by lia; f_equal; lia).
    replace (eac_low i + 8 ^ across t * 8 * 8 ^ (15 - across t) * r) with (eac_low i + (8 ^ across t * r * 8) * 8 ^ (15 - across t)) by ring.
    rewrite Z.div_add by (apply Z.pow_nonzero; lia). rewrite Z.mod_add by lia. unfold eac_low. rewrite number_same, (number_digit 8 _ ltac:(lia) (eac_digits i Hi)) by (change (zlen (tab 16 (fun d => i (across (15 - d))))) with 16; lia).
    rewrite znth_tab by lia. f_equal. replace (15 - (15 - across t)) with (across t) by ring. apply across_twice, Ht. }
  rewrite EI. unfold eac_base, eac_modifier, eac_multiplier, eac_list in *. read V. change (2 ^ Z.of_nat 8) with 256. tidy. repeat f_equal; lia.
Qed.
Lemma alpha_looks b o : alpha_pattern (eac_alpha b o).
Proof.
  set (w := etc_word b o). exists (field w 63 56), (field w 55 52), (field w 51 48), (eac_index w).
  split; [exact (field_bound w 63 56 ltac:(lia))|]. split; [apply field4; lia|]. split; [apply field4; lia|]. split; [|reflexivity].
  intros t _. unfold eac_index. apply field3. lia.
Qed.
Lemma rgba8_looks b : bytes b -> zlen b = 16 -> exists f, rgba8_pattern f /\ forall t, 0 <= t < 16 -> etc2_rgba8_texel b t = f t.
Proof.
  intros _ _. exists (etc2_rgba8_texel b). split; [|reflexivity]. exists (etc2_texel b 8), (eac_alpha b 0). split; [apply etc2_looks|]. split; [apply alpha_looks|reflexivity].
Qed.
Lemma rgba8_stored f : rgba8_pattern f -> exists b, bytes b /\ zlen b = 16 /\ forall t, 0 <= t < 16 -> etc2_rgba8_texel b t = f t.
Proof.
  intros (g & a & G & A & E). destruct (etc2_stored g G) as (bg & Bg & Lg & Tg). destruct (alpha_stored a A) as (ba & Ba & La & Ta). exists (ba ++ bg).
  split; [apply Forall_app; split; assumption|]. split; [rewrite zlen_app; lia|]. intros t Ht. rewrite E by exact Ht. unfold etc2_rgba8_texel. rewrite <- (Tg t Ht), <- (Ta t Ht).
  unfold etc2_texel, eac_alpha. rewrite etc_word_right, etc_word_left by exact La. reflexivity.
Qed.
