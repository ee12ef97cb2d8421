(** * Lemmas about the stored bits, codes and palettes of SpecCrnStore. *)
From Verif Require Import Base BaseLemmas ModelCrn SpecCrn SpecCrnHeader SpecCrnLevel SpecCrnFile SpecCrnSound SpecCrnStore
  ProofCrnBits ProofCrnHeader ProofCrnFile.

(** ** Bits *)
Lemma bits_byte b0 b1 b2 b3 b4 b5 b6 b7 : bits_of 8 (value [b0; b1; b2; b3; b4; b5; b6; b7]) = [b0; b1; b2; b3; b4; b5; b6; b7].
Proof. destruct b0, b1, b2, b3, b4, b5, b6, b7; reflexivity. Qed.
Lemma pack_short bs : (length bs < 8)%nat ->
  bytes (pack bs) /\ zlen (pack bs) = zlen bs / 8 + 2 /\ exists rest, bit_stream (pack bs) = bs ++ rest /\ 7 <= zlen rest.
Proof.
  intros L.
  assert (pack bs = [value (firstn 8 (bs ++ repeat false 8)); 0]) as ->.
  { do 8 (destruct bs as [|? bs]; [reflexivity|]). cbn [length] in L. lia. }
  assert (exists b0 b1 b2 b3 b4 b5 b6 b7, firstn 8 (bs ++ repeat false 8) = [b0; b1; b2; b3; b4; b5; b6; b7]) as (b0 & b1 & b2 & b3 & b4 & b5 & b6 & b7 & E).
  { do 8 (destruct bs as [|? bs]; [cbn; repeat eexists|]). cbn [length] in L. lia. }
  split; [|split].
  - rewrite E. constructor; [|constructor; [unfold is_byte; lia|constructor]]. exact (value_range [b0; b1; b2; b3; b4; b5; b6; b7]).
  - change (zlen [value (firstn 8 (bs ++ repeat false 8)); 0]) with 2. unfold zlen. rewrite Z.div_small by lia. reflexivity.
  - exists (skipn (length bs) (repeat false 16)). split.
    + cbn [bit_stream flat_map]. rewrite E, bits_byte, <- E. do 8 (destruct bs as [|? bs]; [reflexivity|]). cbn [length] in L. lia.
    + unfold zlen. rewrite skipn_length, repeat_length. lia.
Qed.
Lemma pack_ok bs : bytes (pack bs) /\ zlen (pack bs) = zlen bs / 8 + 2 /\ exists rest, bit_stream (pack bs) = bs ++ rest /\ 7 <= zlen rest.
Proof.
  remember (length bs) as n eqn:E. revert bs E. induction n as [n IH] using lt_wf_ind. intros bs E.
  destruct (Nat.lt_ge_cases (length bs) 8) as [L|L]; [exact (pack_short bs L)|].
  do 8 (destruct bs as [|? bs]; [cbn [length] in L; lia|]). cbn [length] in E, L.
  destruct (IH (length bs) ltac:(lia) bs eq_refl) as (IB & IL & rest & IR & I7). cbn [pack]. split; [|split].
  - constructor; [|exact IB]. exact (value_range [b; b0; b1; b2; b3; b4; b5; b6]).
  - rewrite zlen_cons, IL, !zlen_cons. replace (1 + (1 + (1 + (1 + (1 + (1 + (1 + (1 + zlen bs)))))))) with (zlen bs + 1 * 8) by lia. rewrite Z.div_add by lia. lia.
  - exists rest. split; [|exact I7]. cbn [bit_stream flat_map]. rewrite bits_byte. unfold bit_stream in IR. rewrite IR. reflexivity.
Qed.

(** ** Numbers *)
Lemma zlen_be n v : 0 <= n -> zlen (be n v) = n.
Proof. intros H. unfold be, zlen. rewrite map_length. fold (zlen (zrange 0 n)). rewrite zlen_zrange. lia. Qed.
Lemma bytes_be n v : bytes (be n v).
Proof. apply Forall_forall. intros x I. apply in_map_iff in I. destruct I as (k & <- & _). apply Z.mod_pos_bound. lia. Qed.
Lemma bytes_app a b : bytes a -> bytes b -> bytes (a ++ b).
Proof. intros. apply Forall_app. split; assumption. Qed.
Lemma bytes_fields l : bytes (fields l).
Proof. induction l as [|x l IH]; [constructor|]. cbn [fields flat_map]. apply bytes_app; [apply bytes_be|exact IH]. Qed.
Definition width (l : list (Z * Z)) : Z := fold_right (fun nv a => fst nv + a) 0 l.
Lemma zlen_fields l : Forall (fun nv => 0 <= fst nv) l -> zlen (fields l) = width l.
Proof.
  induction 1 as [|x l Hx Hl IH]; [reflexivity|]. cbn [fields flat_map width fold_right]. rewrite zlen_app, zlen_be by exact Hx.
  fold (fields l). rewrite IH. reflexivity.
Qed.
Lemma znth_be n v k : 0 <= k < n -> znth (be n v) k = v / 256 ^ (n - 1 - k) mod 256.
Proof. intros H. exact (znth_tab n (fun k => v / 256 ^ (n - 1 - k) mod 256) k H). Qed.
Lemma number_be a n v b : n = 1 \/ n = 2 \/ n = 3 \/ n = 4 -> 0 <= v < 256 ^ n -> number (a ++ be n v ++ b) (zlen a) n = v.
Proof.
  intros Hn Hv. assert (forall k, 0 <= k < n -> znth (a ++ be n v ++ b) (zlen a + k) = v / 256 ^ (n - 1 - k) mod 256) as N.
  { intros k Hk. rewrite znth_app2 by lia. rewrite znth_app1 by (rewrite zlen_be; lia). rewrite znth_be by lia. f_equal. f_equal. f_equal. lia. }
  assert (znth (a ++ be n v ++ b) (zlen a) = v / 256 ^ (n - 1) mod 256) as N0.
  { pose proof (N 0 ltac:(lia)) as E. rewrite Z.add_0_r, Z.sub_0_r in E. exact E. }
  destruct Hn as [-> |[-> |[-> | ->]]].
  - rewrite number_1, N0. change (256 ^ (1 - 1)) with 1. rewrite Z.div_1_r. apply Z.mod_small. exact Hv.
  - rewrite number_2. rewrite N0, !N by lia. change (2 - 1) with 1. change (1 - 1) with 0.
    change (256 ^ 1) with 256 in *. change (256 ^ 0) with 1. change (256 ^ 2) with 65536 in Hv. pose proof (Z.div_mod v 256 ltac:(lia)). pose proof (Z.div_lt_upper_bound v 256 256 ltac:(lia) ltac:(lia)).
    pose proof (Z.div_pos v 256 ltac:(lia) ltac:(lia)). rewrite (Z.mod_small (v / 256)), Z.div_1_r by lia. lia.
  - rewrite number_3. rewrite N0, !N by lia. change (3 - 1) with 2. change (2 - 1) with 1. change (2 - 2) with 0.
    change (256 ^ 2) with (256 * 256). change (256 ^ 1) with 256 in *. change (256 ^ 0) with 1. change (256 ^ 3) with (256 * 256 * 256) in Hv. rewrite <- Z.div_div by lia.
    pose proof (Z.div_mod v 256 ltac:(lia)). pose proof (Z.div_lt_upper_bound v 256 (256 * 256) ltac:(lia) ltac:(lia)). pose proof (Z.div_pos v 256 ltac:(lia) ltac:(lia)).
    set (q := v / 256) in *. pose proof (Z.div_mod q 256 ltac:(lia)). pose proof (Z.div_lt_upper_bound q 256 256 ltac:(lia) ltac:(lia)). pose proof (Z.div_pos q 256 ltac:(lia) ltac:(lia)).
    rewrite (Z.mod_small (q / 256)), Z.div_1_r by lia. lia.
  - rewrite number_4. rewrite N0, !N by lia. change (4 - 1) with 3. change (3 - 1) with 2. change (3 - 2) with 1. change (3 - 3) with 0.
    change (256 ^ 3) with (256 * 256 * 256). change (256 ^ 2) with (256 * 256). change (256 ^ 1) with 256 in *. change (256 ^ 0) with 1. change (256 ^ 4) with (256 * 256 * 256 * 256) in Hv. rewrite <- !Z.div_div by lia.
    pose proof (Z.div_mod v 256 ltac:(lia)). pose proof (Z.div_lt_upper_bound v 256 (256 * 256 * 256) ltac:(lia) ltac:(lia)). pose proof (Z.div_pos v 256 ltac:(lia) ltac:(lia)).
    set (q := v / 256) in *. pose proof (Z.div_mod q 256 ltac:(lia)). pose proof (Z.div_lt_upper_bound q 256 (256 * 256) ltac:(lia) ltac:(lia)). pose proof (Z.div_pos q 256 ltac:(lia) ltac:(lia)).
    set (r := q / 256) in *. pose proof (Z.div_mod r 256 ltac:(lia)). pose proof (Z.div_lt_upper_bound r 256 256 ltac:(lia) ltac:(lia)). pose proof (Z.div_pos r 256 ltac:(lia) ltac:(lia)).
    rewrite (Z.mod_small (r / 256)), Z.div_1_r by lia. lia.
Qed.
(** A field of a header. *)
Lemma number_field pre n v post rest o : Forall (fun nv => 0 <= fst nv) pre -> o = width pre -> n = 1 \/ n = 2 \/ n = 3 \/ n = 4 -> 0 <= v < 256 ^ n ->
  number (fields (pre ++ (n, v) :: post) ++ rest) o n = v.
Proof.
  intros Hp -> Hn Hv. unfold fields. rewrite flat_map_app. cbn [flat_map fst snd]. rewrite <- !app_assoc. rewrite <- zlen_fields by exact Hp. apply number_be; assumption.
Qed.
Lemma znth_number_1 d o : number d o 1 = znth d o.
Proof. apply number_1. Qed.

(** ** The code *)
Lemma sum_repeat v n : sum (repeat v n) = v * Z.of_nat n.
Proof. induction n as [|n IH]; [cbn; lia|]. cbn [repeat sum fold_right]. fold (sum (repeat v n)). rewrite IH. lia. Qed.
Lemma map_repeat {A B} (g : A -> B) v n : map g (repeat v n) = repeat (g v) n.
Proof. induction n as [|n IH]; [reflexivity|]. cbn [repeat map]. rewrite IH. reflexivity. Qed.
Lemma zlen_plain : zlen plain_sizes = 8192.
Proof. unfold plain_sizes, zlen. rewrite repeat_length. apply Z2Nat.id. lia. Qed.
Lemma znth_plain s : 0 <= s < 8192 -> znth plain_sizes s = 13.
Proof.
  intros H. pose proof zlen_plain as L. unfold znth, plain_sizes in *. apply (repeat_spec (Z.to_nat 8192) 13). apply nth_In. unfold zlen in L. lia.
Qed.
Lemma plain_code_lengths : code_lengths plain_sizes.
Proof.
  split; [rewrite zlen_plain; lia|]. split; [apply Forall_forall; intros x I; apply repeat_spec in I; lia|].
  unfold plain_sizes. rewrite map_repeat, sum_repeat. change (share 13) with 8. lia.
Qed.
Lemma plain_coded s : 0 <= s < 8192 -> coded plain_sizes s.
Proof. intros H. split; [rewrite zlen_plain; lia|rewrite znth_plain by lia; lia]. Qed.
Lemma plain_code_len s : 0 <= s < 8192 -> zlen (code plain_sizes s) = 13.
Proof. intros H. unfold code. rewrite znth_plain by lia. unfold bits_of, zlen. rewrite map_length. reflexivity. Qed.
Lemma spells_plain n before : spells plain_lengths before (repeat (Sym plain_lengths 13) n) (before ++ repeat 13 n).
Proof.
  revert before. induction n as [|n IH]; intros before; [cbn [repeat]; rewrite app_nil_r; constructor|].
  cbn [repeat]. apply spells_length; [lia|]. replace (before ++ 13 :: repeat 13 n) with ((before ++ [13]) ++ repeat 13 n) by (rewrite <- app_assoc; reflexivity). apply IH.
Qed.
Lemma plain_coding : coding plain_sizes plain_sending.
Proof.
  split; [exact plain_code_lengths|]. unfold plain_sending. rewrite <- zlen_plain.
  pose proof (sends_intro plain_sizes 21 plain_lengths (repeat (Sym plain_lengths 13) (Z.to_nat 8192))) as S. apply S; [lia|reflexivity| |].
  - change (skipn (Z.to_nat 21) length_order) with (@nil Z). intros k [].
  - exact (spells_plain (Z.to_nat 8192) []).
Qed.
Lemma plain_lengths_ok : code_lengths plain_lengths /\ coded plain_lengths 13.
Proof.
  split; [split; [|split]|split].
  - change (zlen plain_lengths) with 21. lia.
  - apply Forall_forall. intros x I. unfold plain_lengths in I. apply in_map_iff in I. destruct I as (k & <- & _). destruct (k =? 13); lia.
  - vm_compute. repeat split; congruence.
  - change (zlen plain_lengths) with 21. lia.
  - vm_compute. repeat split; congruence.
Qed.
Lemma plain_sending_ok : Forall item_ok plain_sending.
Proof.
  unfold plain_sending. constructor; [vm_compute; repeat split; congruence|]. constructor; [vm_compute; repeat split; congruence|]. apply Forall_app. split.
  - apply Forall_forall. intros x I. apply in_map_iff in I. destruct I as (k & <- & I). cbn [item_ok].
    unfold length_order in I. cbn [In] in I. repeat (destruct I as [<-|I]; [vm_compute; repeat split; congruence|]). destruct I.
  - apply Forall_forall. intros x I. apply repeat_spec in I. subst x. exact plain_lengths_ok.
Qed.
(** The number of bits of a list of items. *)
Definition item_room (i : item) : Z := match i with Sym s v => znth s v | Raw n _ => n end.
Lemma zlen_item i : item_ok i -> zlen (item_bits i) = item_room i.
Proof.
  destruct i as [s v|n v]; cbn [item_ok item_bits item_room].
  - intros [[_ [F _]] [C _]]. unfold code, bits_of, zlen. rewrite map_length. fold (zlen (zrange 0 (znth s v))). rewrite zlen_zrange.
    rewrite Forall_forall in F. specialize (F (znth s v)). enough (0 <= znth s v) by lia. apply F. unfold znth. apply nth_In. unfold zlen in C. lia.
  - intros [H _]. unfold bits_of, zlen. rewrite map_length. fold (zlen (zrange 0 n)). rewrite zlen_zrange. lia.
Qed.
Lemma zlen_items l : Forall item_ok l -> zlen (flat_map item_bits l) = sum (map item_room l).
Proof.
  induction 1 as [|i l Hi Hl IH]; [reflexivity|]. cbn [flat_map map sum fold_right]. rewrite zlen_app, zlen_item by exact Hi. rewrite IH. reflexivity.
Qed.
Lemma sum_app a b : sum (a ++ b) = sum a + sum b.
Proof. induction a as [|x a IH]; [reflexivity|]. cbn [app sum fold_right]. fold (sum (a ++ b)). fold (sum a). rewrite IH. lia. Qed.
Lemma room_sending a b tl i n : sum (map item_room (a :: b :: tl ++ repeat i n)) = item_room a + item_room b + sum (map item_room tl) + item_room i * Z.of_nat n.
Proof. cbn [map]. rewrite map_app, map_repeat. cbn [sum fold_right]. fold (sum (map item_room tl ++ repeat (item_room i) n)). rewrite sum_app, sum_repeat. lia. Qed.
Lemma zlen_plain_sending : zlen (flat_map item_bits plain_sending) = 8274.
Proof.
  rewrite zlen_items by exact plain_sending_ok. unfold plain_sending. rewrite room_sending, Z2Nat.id by lia.
  assert (sum (map item_room (map (fun k => Raw 3 (znth plain_lengths k)) length_order)) = 63) as -> by reflexivity.
  assert (item_room (Sym plain_lengths 13) = 1) as -> by reflexivity. reflexivity.
Qed.

(** ** Steps *)
Lemma zsum_0 f : zsum 0 f = 0.
Proof. reflexivity. Qed.
Lemma zsum_succ n f : 0 <= n -> zsum (n + 1) f = zsum n f + f n.
Proof. intros H. unfold zsum. rewrite zrange_snoc by lia. rewrite map_app, sum_app. cbn [map sum fold_right]. lia. Qed.
Lemma zsum_mod b n f : 0 < b -> 0 <= n -> zsum n (fun i => f i mod b) mod b = zsum n f mod b.
Proof.
  intros Hb H. assert (b <> 0) as Nb by lia. pattern n. apply natlike_ind; [reflexivity| |exact H]. intros k Hk IH. change (Z.succ k) with (k + 1). rewrite !zsum_succ by lia.
  rewrite Z.add_mod_idemp_r by exact Nb.
  rewrite <- (Z.add_mod_idemp_l (zsum k f)), <- (Z.add_mod_idemp_l (zsum k (fun i => f i mod b))) by exact Nb. rewrite IH. reflexivity.
Qed.
Lemma zsum_ext n f g : (forall i, 0 <= i < n -> f i = g i) -> zsum n f = zsum n g.
Proof. intros H. unfold zsum. f_equal. apply map_ext_in. intros i I. apply in_zrange in I. apply H. lia. Qed.
Lemma zsum_steps n x : 0 <= n -> zsum n (fun i => x i - before x i) = before x n.
Proof.
  intros H. pattern n. apply natlike_ind; [reflexivity| |exact H]. intros k Hk IH. change (Z.succ k) with (k + 1). rewrite zsum_succ, IH by lia.
  unfold before at 3. destruct (Z.eqb_spec (k + 1) 0); [lia|]. replace (k + 1 - 1) with k by lia. lia.
Qed.
Lemma moved_steps b n x : 0 < b -> 0 <= n -> moved b n (step_mod b x) = x n mod b.
Proof.
  intros Hb H. unfold moved, step_mod. rewrite zsum_mod by lia. rewrite zsum_steps by lia. unfold before. destruct (Z.eqb_spec (n + 1) 0); [lia|]. replace (n + 1 - 1) with n by lia. reflexivity.
Qed.
Lemma pair_step_range mx x i j : 0 <= mx -> (forall i k, 0 <= x i k <= mx) -> 0 <= pair_step mx x i j < (2 * mx + 1) * (2 * mx + 1).
Proof.
  intros Hm Hx. unfold pair_step. assert (forall k, 0 <= x i k - before (fun i' => x i' k) i + mx <= 2 * mx) as R.
  { intros k. pose proof (Hx i k). unfold before. destruct (_ =? _); [lia|]. pose proof (Hx (i - 1) k). lia. }
  pose proof (R (2 * j)). pose proof (R (2 * j + 1)). cbv zeta. nia.
Qed.
Lemma shift_pair mx x i k : 0 <= mx -> (forall i k, 0 <= x i k <= mx) ->
  shift_by mx (pair_step mx x i (k / 2)) k = x i k - before (fun i' => x i' k) i.
Proof.
  intros Hm Hx. unfold shift_by, pair_step. cbv zeta.
  assert (forall k, 0 <= x i k - before (fun i' => x i' k) i + mx < 2 * mx + 1) as R.
  { intros q. pose proof (Hx i q). unfold before. destruct (_ =? _); [lia|]. pose proof (Hx (i - 1) q). lia. }
  pose proof (Z.div_mod k 2 ltac:(lia)) as K. pose proof (Z.mod_pos_bound k 2 ltac:(lia)).
  destruct (Z.eqb_spec (k mod 2) 0) as [E|E].
  - replace (2 * (k / 2)) with k by lia. rewrite Z.add_comm, (Z.mul_comm (2 * mx + 1)), Z.add_comm, Z.mod_add by lia. rewrite Z.mod_small by apply R. lia.
  - replace (2 * (k / 2) + 1) with k by lia. rewrite (Z.mul_comm (2 * mx + 1)), Z.div_add by lia. rewrite Z.div_small by apply R. lia.
Qed.
Lemma selector_steps mx x i k : 0 <= mx -> 0 <= i -> (forall i k, 0 <= x i k <= mx) -> selector_value mx (pair_step mx x) i k = x i k.
Proof.
  intros Hm Hi Hx. unfold selector_value, moved.
  rewrite (zsum_ext _ _ (fun i' => x i' k - before (fun i'' => x i'' k) i')) by (intros; apply shift_pair; assumption).
  rewrite (zsum_steps (i + 1) (fun i' => x i' k)) by lia. unfold before. destruct (Z.eqb_spec (i + 1) 0); [lia|]. replace (i + 1 - 1) with i by lia.
  apply Z.mod_small. pose proof (Hx i k). lia.
Qed.
Lemma digits_number b n v : 1 < b -> 0 <= n -> 0 <= v < b ^ n -> digits b n (fun k => v / b ^ k mod b) = v.
Proof.
  intros Hb Hn Hv. assert (forall j, 0 <= j -> digits b j (fun k => v / b ^ k mod b) = v mod b ^ j) as D.
  { intros j Hj. pattern j. apply natlike_ind; [rewrite Z.mod_1_r; reflexivity| |exact Hj]. intros k Hk IH. change (Z.succ k) with (k + 1).
    unfold digits in *. rewrite zsum_succ, IH by lia. rewrite Z.pow_add_r, Z.pow_1_r by lia. rewrite Z.rem_mul_r by lia. lia. }
  rewrite D by lia. apply Z.mod_small. exact Hv.
Qed.
