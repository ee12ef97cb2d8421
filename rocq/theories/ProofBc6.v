(** * Proofs about the BC6H decoder *)
From Verif Require Import Base BaseLemmas BitLemmas FieldLemmas ModelColor SpecImage ProofDecoder ModelBits SpecBits
  ProofBits ModelBptc SpecBptc SpecBc ProofBc ModelBc7 ProofBc7 SpecF16 ModelF16 ProofF16 ModelBc6 SpecBc6.

(** ** The three arrays of end points as a function of channel and end point *)
Definition eps_of (F : Z -> Z -> Z) : list (list Z) := [tab 4 (F 0); tab 4 (F 1); tab 4 (F 2)].
Definition setF (F : Z -> Z -> Z) (c i v : Z) : Z -> Z -> Z :=
  fun c' i' => if (c' =? c) && (i' =? i) then v else F c' i'.

Lemma eps_ext F G : (forall c i, 0 <= c < 3 -> 0 <= i < 4 -> F c i = G c i) -> eps_of F = eps_of G.
Proof.
  intros H. unfold eps_of. rewrite (tab_ext 4 (F 0) (G 0)), (tab_ext 4 (F 1) (G 1)), (tab_ext 4 (F 2) (G 2)); auto;
    intros; apply H; lia.
Qed.

Lemma idx_eps F c : 0 <= c < 3 -> idx (eps_of F) c = Ok (tab 4 (F c)).
Proof. intros H. enum c H; reflexivity. Qed.

Lemma map_ep_ok F c i f v : 0 <= c < 3 -> 0 <= i < 4 -> f (F c i) = Ok v ->
  map_ep (eps_of F) c i f = Ok (eps_of (setF F c i v)).
Proof.
  intros Hc Hi Hf. unfold map_ep. rewrite idx_eps by auto. cbn [bind].
  rewrite idx_ok by (rewrite zlen_tab; lia). cbn [bind]. rewrite znth_tab by lia. rewrite Hf. cbn [bind].
  enum i Hi; enum c Hc; reflexivity.
Qed.

Lemma three_loop i (body : Z -> list (list Z) -> res (list (list Z))) F g : 0 <= i < 4 ->
  (forall c G, 0 <= c < 3 -> (forall j, G c j = F c j) -> body c (eps_of G) = Ok (eps_of (setF G c i (g c)))) ->
  for_range 0 3 body (eps_of F) = Ok (eps_of (fun c' i' => if i' =? i then g c' else F c' i')).
Proof.
  intros Hi H. unfold for_range. change (zrange 0 3) with [0; 1; 2]. cbn [for_list].
  rewrite H by (auto; lia). cbn [bind]. rewrite H by (auto; lia). cbn [bind]. rewrite H by (auto; lia). cbn [bind].
  apply (f_equal Ok), eps_ext. intros c j Hc Hj. unfold setF.
  enum c Hc; cbn [Z.eqb Pos.eqb andb]; destruct (j =? i); auto.
Qed.

(** ** Bit arithmetic on 16-bit values *)
Lemma lor_bound a b n : 0 <= n -> 0 <= a < 2 ^ n -> 0 <= b < 2 ^ n -> 0 <= Z.lor a b < 2 ^ n.
Proof.
  intros Hn Ha Hb. assert (Z.lor a b mod 2 ^ n = Z.lor a b) as <-.
  { apply Z.bits_inj'. intros k Hk. destruct (Z.ltb_spec k n).
    - apply Z.mod_pow2_bits_low; lia.
    - rewrite Z.mod_pow2_bits_high by lia. rewrite Z.lor_spec.
      rewrite <- (Z.mod_small a (2 ^ n)), <- (Z.mod_small b (2 ^ n)) by lia.
      rewrite !Z.mod_pow2_bits_high by lia. auto. }
  apply Z.mod_pos_bound, Z.pow_pos_nonneg; lia.
Qed.

Lemma land16 v : 0 <= v < 65536 ->
  (Z.land v 0x8000 =? 0) = (v <? 32768) /\ Z.land v 0x7fff = v mod 32768 /\ Z.land v 0x8000 = v / 32768 * 32768 /\
  Z.lor (v mod 32768 * 31 / 32) (v / 32768 * 32768) = v mod 32768 * 31 / 32 + v / 32768 * 32768.
Proof.
  intros H. assert (Z.land v 0x8000 = v / 32768 * 32768) as E.
  { change 0x8000 with (2 ^ 15). rewrite land_pow2 by lia. change (2 ^ 15) with 32768.
    rewrite (Z.mod_small (v / 32768)); [reflexivity|]. dlia. }
  split; [|split; [|split]].
  - rewrite E. destruct (Z.eqb_spec (v / 32768 * 32768) 0), (Z.ltb_spec v 32768); auto; dlia.
  - change 0x7fff with (2 ^ 15 - 1). apply land_mask; lia.
  - exact E.
  - change 32768 with (2 ^ 15) at 3 5. apply lor_comm_add; [lia|]. change (2 ^ 15) with 32768. dlia.
Qed.

(** 16-bit two's complement of an [n]-bit value. *)
Definition se (n v : Z) : Z := if v <? 2 ^ (n - 1) then v else v + (65536 - 2 ^ n).
Lemma sign_extend_ok m n v : 1 <= n <= 16 -> 0 <= v < 2 ^ n -> sign_extend m v n = Ok (se n v).
Proof.
  intros Hn Hv. unfold sign_extend. rewrite ua_ok by lia. cbn [bind]. rewrite ushl_ok by lia. cbn [bind].
  rewrite Z.mul_1_l, (Z.mod_small (2 ^ (n - 1)) (2 ^ 16)).
  2:{ split; [apply Z.pow_nonneg; lia|apply Z.pow_lt_mono_r; lia]. }
  apply (f_equal Ok). rewrite lxor_pow2 by lia. unfold se, u16. change (2 ^ 16) with 65536.
  assert (2 ^ n = 2 * 2 ^ (n - 1)) as E by (rewrite <- Z.pow_succ_r by lia; f_equal; lia).
  assert (0 < 2 ^ (n - 1)) by (apply Z.pow_pos_nonneg; lia).
  assert (2 ^ (n - 1) <= 2 ^ 15) as U by (apply Z.pow_le_mono_r; lia). change (2 ^ 15) with 32768 in U.
  rewrite E in *. set (p := 2 ^ (n - 1)) in *. clearbody p.
  destruct (Z.ltb_spec v p).
  - rewrite Z.div_small by lia. cbn [Z.modulo Z.div_eucl Z.eqb]. rewrite Z.mod_small; lia.
  - assert (v / p = 1) as -> by (symmetry; apply Z.div_unique with (v - p); lia).
    change (1 mod 2 =? 0) with false. cbv iota. symmetry. apply Z.mod_unique with (-1); lia.
Qed.

Lemma se_range n v : 1 <= n <= 16 -> 0 <= v < 2 ^ n ->
  0 <= se n v < 65536 /\ (se n v < 2 ^ (n - 1) \/ 65536 - 2 ^ (n - 1) <= se n v) /\
  se n v mod 65536 = (sext n v) mod 65536.
Proof.
  intros Hn Hv. assert (2 ^ n <= 2 ^ 16) by (apply Z.pow_le_mono_r; lia). change (2 ^ 16) with 65536 in *.
  assert (2 ^ n = 2 * 2 ^ (n - 1)) as E by (rewrite <- Z.pow_succ_r by lia; f_equal; lia).
  unfold se, sext. destruct (Z.ltb_spec v (2 ^ (n - 1))).
  - split; [lia|]. split; [lia|]. auto.
  - split; [lia|]. split; [lia|]. replace (v + (65536 - 2 ^ n)) with (v - 2 ^ n + 1 * 65536) by lia.
    apply Z.mod_add; lia.
Qed.

(** Code versions of unquantisation and final scaling on 16-bit patterns. *)
Definition unq_code (sgn : bool) (eb v : Z) : Z :=
  if sgn then
    if 16 <=? eb then v else
    let a := v mod 32768 in
    let u := if a =? 0 then 0 else if 2 ^ (eb - 1) - 1 <=? a then 32767 else (a * 2 ^ 15 + 2 ^ 14) / 2 ^ (eb - 1) in
    if v <? 32768 then u else 65536 - u
  else unq_unsigned_code eb v.

Lemma shift_half x eb : 1 <= eb -> (x * 2 ^ 15 + 2 ^ 14) / 2 ^ (eb - 1) = (x * 2 ^ 16 + 2 ^ 15) / 2 ^ eb.
Proof.
  intros H. replace eb with (1 + (eb - 1)) at 2 by lia. rewrite Z.pow_add_r by lia.
  change (2 ^ 1) with 2. change (2 ^ 16) with (2 ^ 15 * 2). change (2 ^ 15) with (2 ^ 14 * 2) at 3.
  replace (x * (2 ^ 15 * 2) + 2 ^ 14 * 2) with (2 * (x * 2 ^ 15 + 2 ^ 14)) by ring.
  rewrite Z.div_mul_cancel_l; auto; [|lia]. apply Z.pow_nonzero; lia.
Qed.

Lemma unquantize_ok m sgn eb v : 1 <= eb <= 16 -> 0 <= v < 65536 ->
  (sgn = true -> eb < 16 -> v <> 32768) -> (sgn = false -> v < 2 ^ eb) ->
  unquantize m v sgn eb = Ok (unq_code sgn eb v) /\ 0 <= unq_code sgn eb v < 65536.
Proof.
  intros Heb Hv Hs Hu. unfold unquantize. rewrite ua_ok by lia. cbn [bind]. rewrite ushl_ok by lia. cbn [bind].
  assert (1 <= 2 ^ (eb - 1)) as P1 by (pose proof (Z.pow_pos_nonneg 2 (eb - 1)); lia).
  assert (2 ^ (eb - 1) <= 2 ^ 15) as P2 by (apply Z.pow_le_mono_r; lia).
  rewrite Z.mul_1_l, (Z.mod_small (2 ^ (eb - 1)) (2 ^ 16)) by (change (2 ^ 16) with 65536; change (2 ^ 15) with 32768 in *; lia).
  unfold unq_code. destruct sgn.
  - destruct (Z.leb_spec 16 eb); [auto|].
    cbv zeta. destruct (land16 v Hv) as (L1 & L2 & L3 & L4). rewrite L1, L2. clear L1 L2 L3 L4.
    set (a := v mod 32768). assert (0 <= a < 32768) as Ba by (apply Z.mod_pos_bound; lia).
    set (u := if a =? 0 then 0 else if 2 ^ (eb - 1) - 1 <=? a then 32767 else (a * 2 ^ 15 + 2 ^ 14) / 2 ^ (eb - 1)).
    assert (0 <= u < 32768 /\ (a = 0 -> u = 0) /\ (a <> 0 -> 1 <= u)) as (Bu & U0 & U1).
    { unfold u. destruct (Z.eqb_spec a 0); [lia|]. destruct (Z.leb_spec (2 ^ (eb - 1) - 1) a); [lia|].
      split; [|split; [lia|]].
      - split; [apply Z.div_pos; lia|]. apply Z.div_lt_upper_bound; [lia|].
        change (2 ^ 15) with 32768. change (2 ^ 14) with 16384. lia.
      - intros _. apply Z.div_le_lower_bound; [lia|]. change (2 ^ 15) with 32768 in *. change (2 ^ 14) with 16384. lia. }
    match goal with |- context [bind (if a =? 0 then ?x else ?y) _] => assert ((if a =? 0 then x else y) = Ok u) as -> end.
    { unfold u. destruct (Z.eqb_spec a 0); [auto|].
      rewrite ua_ok by (change (2 ^ 15) with 32768 in *; change (2 ^ 16) with 65536; lia). cbn [bind].
      destruct (Z.leb_spec (2 ^ (eb - 1) - 1) a) as [L|L]; [auto|].
      rewrite ushl_ok by lia. cbn [bind]. rewrite (Z.mod_small (a * 2 ^ 15)) by (change (2 ^ 15) with 32768; change (2 ^ 32) with 4294967296; lia).
      rewrite ua_ok by (change (2 ^ 15) with 32768; change (2 ^ 32) with 4294967296; lia). cbn [bind].
      cbn [bind]. rewrite ushr_ok by lia. cbn [bind]. apply (f_equal Ok).
      unfold u16. change 16384 with (2 ^ 14). apply Z.mod_small.
      destruct (Z.eqb_spec a 0); [lia|]. change (2 ^ 16) with 65536.
      unfold u in Bu. destruct (Z.eqb_spec a 0); [lia|]. destruct (Z.leb_spec (2 ^ (eb - 1) - 1) a); [lia|]. lia. }
    cbn [bind]. destruct (Z.ltb_spec v 32768); cbn [negb].
    + split; [auto|lia].
    + assert (a <> 0). { unfold a. specialize (Hs eq_refl ltac:(lia)). dlia. }
      rewrite ua_ok by (change (2 ^ 16) with 65536; lia). cbn [bind].
      rewrite ua_ok by (change (2 ^ 16) with 65536; lia). split; [apply (f_equal Ok); lia|]. lia.
  - unfold unq_unsigned_code. destruct (Z.leb_spec 15 eb); [auto|].
    destruct (Z.eqb_spec v 0); [split; [auto|lia]|]. destruct (Z.eqb_spec v (2 ^ (eb - 1))); [split; [auto|lia]|].
    specialize (Hu eq_refl).
    assert (2 ^ eb = 2 * 2 ^ (eb - 1)) as E by (rewrite <- Z.pow_succ_r by lia; f_equal; lia).
    rewrite ushl_ok by lia. cbn [bind]. rewrite (Z.mod_small (v * 2 ^ 15)) by (change (2 ^ 15) with 32768; change (2 ^ 32) with 4294967296; lia).
    rewrite ua_ok by (change (2 ^ 15) with 32768; change (2 ^ 32) with 4294967296; lia). cbn [bind].
    cbn [bind]. rewrite ushr_ok by lia. cbn [bind].
    change 16384 with (2 ^ 14). rewrite shift_half by lia.
    assert (0 <= (v * 2 ^ 16 + 2 ^ 15) / 2 ^ eb < 65536).
    { split; [apply Z.div_pos; lia|]. apply Z.div_lt_upper_bound; [lia|]. change (2 ^ 16) with 65536. change (2 ^ 15) with 32768. lia. }
    split; [|lia]. apply (f_equal Ok). unfold u16. apply Z.mod_small. assumption.
Qed.

Definition finish_code (sgn : bool) (x : Z) : Z :=
  if sgn then x mod 32768 * 31 / 32 + x / 32768 * 32768 else x * 31 / 64.
Lemma finish_ok m sgn x : 0 <= x < 65536 ->
  finish_unquantize m x sgn = Ok (finish_code sgn x) /\ 0 <= finish_code sgn x < 65536.
Proof.
  intros H. unfold finish_unquantize, finish_code. destruct sgn.
  - destruct (land16 x H) as (L1 & L2 & L3 & L4). rewrite L2, L3.
    assert (0 <= x mod 32768 < 32768) by (apply Z.mod_pos_bound; lia).
    assert (0 <= x / 32768 < 2) by dlia.
    assert (0 <= x mod 32768 * 31 / 32 < 32768) by dlia.
    rewrite ua_ok by lia. cbn [bind]. rewrite ushr_ok by lia. cbn [bind]. change (2 ^ 5) with 32.
    unfold u16. change (2 ^ 16) with 65536. rewrite (Z.mod_small (x mod 32768 * 31 / 32)) by lia.
    rewrite L4. split; [auto|lia].
  - rewrite ua_ok by lia. cbn [bind]. rewrite ushr_ok by lia. cbn [bind]. change (2 ^ 6) with 64.
    assert (0 <= x * 31 / 64 < 65536) by dlia. unfold u16. rewrite Z.mod_small by (change (2 ^ 16) with 65536; lia). auto.
Qed.

(** ** The read tables *)
Fixpoint gatherc (b : list Z) (c i : Z) (l : list (Z * Z * Z * Z)) (p : Z) : Z :=
  match l with
  | [] => 0
  | (c', i', n, s) :: l' =>
      Z.lor (if (c' =? c) && (i' =? i) then bits b p n * 2 ^ s else 0) (gatherc b c i l' (p + n))
  end.
Fixpoint ok_reads (p : Z) (l : list (Z * Z * Z * Z)) : bool :=
  match l with
  | [] => true
  | (c, i, n, s) :: l' =>
      (0 <=? c) && (c <? 3) && (0 <=? i) && (i <? 4) && (0 <=? n) && (n <=? 15) && (0 <=? s) && (n + s <=? 16) && (s <? 16) &&
      (p + n <=? 128) && ok_reads (p + n) l'
  end.
Fixpoint total_reads (l : list (Z * Z * Z * Z)) : Z :=
  match l with [] => 0 | (_, _, n, _) :: l' => n + total_reads l' end.

Lemma gather_conv b c i l p : 0 <= c < 3 -> 0 <= i -> ok_reads p l = true ->
  gatherc b c i l p = gather b (component c i) (map (fun '(c, i, n, s) => (component c i, s, n)) l) p.
Proof.
  intros Hc Hi. revert p. induction l as [|[[[c' i'] n] s] l IH]; intros p H; cbn [gatherc gather map]; auto.
  cbn [ok_reads] in H. repeat (apply andb_prop in H as [H ?]).
  rewrite IH by auto. unfold component.
  destruct (Z.eqb_spec c' c), (Z.eqb_spec i' i), (Z.eqb_spec (3 * i' + c') (3 * i + c)); cbn [andb]; auto; try lia.
Qed.

Section Reads.
Context (m : build) (data b : list Z).
Hypothesis Hread : forall pos n, 0 <= pos -> 0 <= n <= 15 -> pos + n <= 128 ->
  read m data pos n = Ok (bits b pos n, pos + n).

Lemma reads_ok l : forall p F, 0 <= p -> ok_reads p l = true ->
  for_list l (bc6_read_one m data) (eps_of F, p) =
  Ok (eps_of (fun c i => Z.lor (F c i) (gatherc b c i l p)), p + total_reads l).
Proof.
  induction l as [|[[[c i] n] s] l IH]; intros p F Hp H.
  - cbn [for_list gatherc total_reads]. rewrite Z.add_0_r. apply (f_equal Ok). f_equal. apply eps_ext.
    intros. rewrite Z.lor_0_r. auto.
  - cbn [for_list gatherc total_reads]. cbn [ok_reads] in H. repeat (apply andb_prop in H as [H ?]).
    unfold bc6_read_one at 1. rewrite Hread by lia. cbn [bind]. rewrite ushl_ok by lia. cbn [bind].
    rewrite (map_ep_ok F c i _ (Z.lor (F c i) (bits b p n * 2 ^ s))); [|lia|lia|].
    + cbn [bind]. rewrite IH by (auto; lia). apply (f_equal Ok). f_equal; [|lia].
      apply eps_ext. intros c' i' _ _. unfold setF.
      rewrite (Z.eqb_sym c' c), (Z.eqb_sym i' i).
      destruct (Z.eqb_spec c c'), (Z.eqb_spec i i'); cbn [andb]; try (rewrite Z.lor_0_l; auto; fail).
      subst. symmetry. apply Z.lor_assoc.
    + apply (f_equal Ok). f_equal. apply Z.mod_small. pose proof (bits_range b p n ltac:(lia)).
      split; [apply Z.mul_nonneg_nonneg; [lia|apply Z.pow_nonneg; lia]|].
      apply Z.lt_le_trans with (2 ^ n * 2 ^ s).
      * apply Z.mul_lt_mono_pos_r; [apply Z.pow_pos_nonneg; lia|lia].
      * rewrite <- Z.pow_add_r by lia. apply Z.pow_le_mono_r; lia.
Qed.
End Reads.

(** Rows [a..k-1] of the end points, one after the other. *)
Lemma row_loop a k body F g : (a = 0 \/ a = 1) -> (k = 2 \/ k = 4) ->
  (forall i G, a <= i < k -> (forall c j, (j < a \/ i <= j) -> G c j = F c j) ->
     body i (eps_of G) = Ok (eps_of (fun c' i' => if i' =? i then g c' i else G c' i'))) ->
  for_range a k body (eps_of F) = Ok (eps_of (fun c i => if (a <=? i) && (i <? k) then g c i else F c i)).
Proof.
  intros Ha Hk H.
  assert (forall i k' G, a <= i <= k' -> k' <= k -> (forall c j, (j < a \/ i <= j) -> G c j = F c j) ->
     for_list (zrange i k') body (eps_of G) = Ok (eps_of (fun c j => if (i <=? j) && (j <? k') then g c j else G c j))) as L.
  { intros i k' G Hi Hk' HG. remember (Z.to_nat (k' - i)) as n eqn:En. revert i G Hi HG En.
    induction n as [|n IH]; intros i G Hi HG En.
    - assert (i = k') as -> by lia. rewrite zrange_nil by lia. cbn [for_list]. apply (f_equal Ok), eps_ext. intros c j _ _.
      destruct (Z.leb_spec k' j), (Z.ltb_spec j k'); auto; lia.
    - rewrite zrange_cons by lia. cbn [for_list]. rewrite H by (auto; lia). cbn [bind].
      rewrite IH; [|lia| |lia].
      + apply (f_equal Ok), eps_ext. intros c j _ _.
        destruct (Z.leb_spec (i + 1) j), (Z.leb_spec i j), (Z.ltb_spec j k'), (Z.eqb_spec j i); subst; auto; lia.
      + intros c j Hj. destruct (Z.eqb_spec j i); [lia|]. apply HG. lia. }
  unfold for_range. apply L; auto; lia.
Qed.

(** ** Parameters of the modes *)
Definition width6 (mode c e : Z) : Z := if e =? 0 then EB mode else DB mode c.
Definition two6 (mode : Z) : bool := subsets6 mode =? 2.

Lemma valid_cases mode : bc6_valid mode = true -> In mode bc6_modes.
Proof. unfold bc6_valid. intros H. apply existsb_exists in H as (x & Hx & E). apply Z.eqb_eq in E. subst. auto. Qed.

Definition mode_ok (mode : Z) : bool :=
  match idx S_BC6H_MODE_INFO mode with
  | Ok mi => Bool.eqb (transformed mi) (is_delta mode) && (endpoint_bits mi =? EB mode) &&
      Bool.eqb (partition_bits6 mi =? 0) (negb (two6 mode))
  | _ => false
  end &&
  ok_reads (mode_len mode) (bc6_reads mode) &&
  (mode_len mode + total_reads (bc6_reads mode) =? if two6 mode then 77 else 65) &&
  (1 <=? EB mode) && (EB mode <=? 16) && ((EB mode <=? 12) || (mode =? 15)) && (negb (mode =? 15) || (EB mode =? 16)) &&
  (negb (mode =? 15) || is_delta mode) && (negb (mode =? 15) || negb (two6 mode)) &&
  all_below 3 (fun c => (1 <=? DB mode c) && (DB mode c <=? EB mode) && (DB mode c <=? 12) && (is_delta mode || (DB mode c =? EB mode))) &&
  forallb (fun '(c, i, n, s) => n + s <=? width6 mode c i) (bc6_reads mode) &&
  ((subsets6 mode =? 1) || (subsets6 mode =? 2)) && (0 <=? mode) && (mode <? 32).
Lemma mode_sweep : forallb mode_ok bc6_modes = true.
Proof. vm_compute. reflexivity. Qed.

Record mode_facts (mode : Z) (mi : Bc6hModeInfo) : Prop := {
  mf_info : idx S_BC6H_MODE_INFO mode = Ok mi;
  mf_tr : transformed mi = is_delta mode;
  mf_eb : endpoint_bits mi = EB mode;
  mf_db : delta_bits mi = [DB mode 0; DB mode 1; DB mode 2];
  mf_pb : (partition_bits6 mi =? 0) = negb (two6 mode);
  mf_reads : ok_reads (mode_len mode) (bc6_reads mode) = true;
  mf_total : mode_len mode + total_reads (bc6_reads mode) = if two6 mode then 77 else 65;
  mf_EB : 1 <= EB mode <= 16;
  mf_EB12 : EB mode <= 12 \/ mode = 15;
  mf_15 : mode = 15 -> EB mode = 16 /\ is_delta mode = true /\ two6 mode = false;
  mf_DB : forall c, 0 <= c < 3 -> 1 <= DB mode c <= 12 /\ DB mode c <= EB mode /\ (is_delta mode = true \/ DB mode c = EB mode);
  mf_width : forall c i n s, In (c, i, n, s) (bc6_reads mode) -> n + s <= width6 mode c i;
  mf_layout : layout mode = map (fun '(c, i, n, s) => (component c i, s, n)) (bc6_reads mode);
  mf_sub : (two6 mode = true /\ subsets6 mode = 2) \/ (two6 mode = false /\ subsets6 mode = 1)
}.

Lemma mode_layout : forall mode, In mode bc6_modes ->
  layout mode = map (fun '(c, i, n, s) => (component c i, s, n)) (bc6_reads mode) /\
  exists mi, idx S_BC6H_MODE_INFO mode = Ok mi /\ delta_bits mi = [DB mode 0; DB mode 1; DB mode 2].
Proof.
  intros mode H. cbn [In bc6_modes] in H.
  repeat destruct H as [<-|H]; try contradiction;
    (split; [reflexivity|eexists; split; reflexivity]).
Qed.

Lemma mode_facts6 mode : bc6_valid mode = true -> exists mi, mode_facts mode mi.
Proof.
  intros V. apply valid_cases in V. destruct (mode_layout mode V) as (L & mi & Ei & Ed).
  pose proof mode_sweep as S. rewrite forallb_forall in S. specialize (S _ V). unfold mode_ok in S. rewrite Ei in S.
  repeat match type of S with (_ && _ = true) => apply andb_prop in S as [S ?] end.
  repeat match goal with H : (_ <=? _) = true |- _ => apply Z.leb_le in H end.
  repeat match goal with H : (_ <? _) = true |- _ => apply Z.ltb_lt in H end.
  repeat match goal with H : (_ =? _) = true |- _ => apply Z.eqb_eq in H end.
  repeat match goal with H : Bool.eqb _ _ = true |- _ => apply Bool.eqb_prop in H end.
  exists mi. constructor; auto; try lia.
  - intros ->. cbn [Z.eqb Pos.eqb negb orb] in *.
    repeat match goal with H : (_ =? _) = true |- _ => apply Z.eqb_eq in H end.
    split; [auto|]. split; [auto|]. destruct (two6 15); auto; discriminate.
  - intros c Hc. match goal with H : all_below 3 _ = true |- _ => pose proof (all_below_spec _ _ H c Hc) as A end.
    cbv beta in A. apply andb_prop in A as [A A4]. apply andb_prop in A as [A A3]. apply andb_prop in A as [A1 A2].
    split; [lia|]. split; [lia|]. apply orb_prop in A4 as [A4|A4]; [auto|right; lia].
  - intros c i n s Hin. match goal with H : forallb _ _ = true |- _ => rewrite forallb_forall in H; specialize (H _ Hin) end.
    cbv beta iota in *. lia.
  - unfold two6. match goal with H : ((subsets6 _ =? 1) || _) = true |- _ => apply orb_prop in H as [E|E] end; apply Z.eqb_eq in E; rewrite E; auto.
Qed.

Lemma gatherc_bound b c i l : forall p, ok_reads p l = true ->
  forall w, 0 <= w -> (forall n s, In (c, i, n, s) l -> n + s <= w) -> 0 <= gatherc b c i l p < 2 ^ w.
Proof.
  induction l as [|[[[c' i'] n] s] l IH]; intros p H w Hw HI; cbn [gatherc].
  - split; [lia|]. apply Z.pow_pos_nonneg; lia.
  - cbn [ok_reads] in H. repeat (apply andb_prop in H as [H ?]).
    apply lor_bound; auto.
    + destruct (Z.eqb_spec c' c), (Z.eqb_spec i' i); cbn [andb]; try (split; [lia|apply Z.pow_pos_nonneg; lia]).
      subst. pose proof (HI n s (or_introl eq_refl)). pose proof (bits_range b p n ltac:(lia)).
      split; [apply Z.mul_nonneg_nonneg; [lia|apply Z.pow_nonneg; lia]|].
      apply Z.lt_le_trans with (2 ^ n * 2 ^ s).
      * apply Z.mul_lt_mono_pos_r; [apply Z.pow_pos_nonneg; lia|lia].
      * rewrite <- Z.pow_add_r by lia. apply Z.pow_le_mono_r; lia.
    + apply IH; auto. intros n' s' Hin. apply HI. right. auto.
Qed.

Lemma stored_range b c e : bc6_valid (bc6_mode b) = true -> 0 <= c < 3 -> 0 <= e ->
  0 <= stored b c e < 2 ^ width6 (bc6_mode b) c e.
Proof.
  intros V Hc He. destruct (mode_facts6 _ V) as (mi & MF). unfold stored. rewrite (mf_layout _ _ MF).
  rewrite <- gather_conv by (auto; try lia; apply (mf_reads _ _ MF)).
  apply gatherc_bound; [apply (mf_reads _ _ MF)| |intros; eapply mf_width; eauto].
  unfold width6. pose proof (mf_EB _ _ MF). pose proof (mf_DB _ _ MF c Hc). destruct (e =? 0); lia.
Qed.

(** ** End points as computed by the code *)
Definition cbase (sgn : bool) (b : list Z) (c : Z) : Z :=
  if sgn then se (EB (bc6_mode b)) (stored b c 0) else stored b c 0.
Definition cend (sgn : bool) (b : list Z) (c e : Z) : Z :=
  let mode := bc6_mode b in
  if e =? 0 then cbase sgn b c
  else if is_delta mode then
    let x := if mode =? 15 then 0 else ((cbase sgn b c + se (DB mode c) (stored b c e)) mod 65536) mod 2 ^ EB mode in
    if sgn then se (EB mode) x else x
  else if sgn then se (DB mode c) (stored b c e) else stored b c e.

Definition code_half (sgn : bool) (b : list Z) (c t : Z) : Z :=
  let s := subset6 b t in
  finish_code sgn (lerp64 (unq_code sgn (EB (bc6_mode b)) (cend sgn b c (2 * s)))
    (unq_code sgn (EB (bc6_mode b)) (cend sgn b c (2 * s + 1))) (weight6 b t)).
Definition code_texel (sgn : bool) (b : list Z) (t : Z) : Z :=
  if bc6_valid (bc6_mode b) then
    rgba (half_byte (code_half sgn b 0 t)) (half_byte (code_half sgn b 1 t)) (half_byte (code_half sgn b 2 t)) 255
  else 0.

Lemma se0 n : 1 <= n -> se n 0 = 0.
Proof. intros H. unfold se. destruct (Z.ltb_spec 0 (2 ^ (n - 1))); auto. pose proof (Z.pow_pos_nonneg 2 (n - 1)). lia. Qed.

(** Range of the code's end points. *)
Lemma cend_range sgn b c e : bc6_valid (bc6_mode b) = true -> 0 <= c < 3 -> 0 <= e ->
  0 <= cend sgn b c e < 65536 /\
  (sgn = true -> EB (bc6_mode b) < 16 -> cend sgn b c e <> 32768) /\
  (sgn = false -> cend sgn b c e < 2 ^ EB (bc6_mode b)).
Proof.
  intros V Hc He. destruct (mode_facts6 _ V) as (mi & MF).
  pose proof (mf_EB _ _ MF) as HEB. pose proof (mf_EB12 _ _ MF) as HEB'. pose proof (mf_DB _ _ MF c Hc) as (HD & HD' & HD'').
  pose proof (mf_15 _ _ MF) as H15.
  pose proof (stored_range b c e V Hc He) as R. pose proof (stored_range b c 0 V Hc ltac:(lia)) as R0.
  set (mode := bc6_mode b) in *.
  assert (forall n v, 1 <= n <= 16 -> 0 <= v < 2 ^ n -> 0 <= se n v < 65536 /\ (n < 16 -> se n v <> 32768)) as S.
  { intros n v Hn Hv. destruct (se_range n v Hn Hv) as (A & B & _). split; [auto|]. intros Hn'.
    assert (2 ^ (n - 1) <= 2 ^ 14) by (apply Z.pow_le_mono_r; lia). change (2 ^ 14) with 16384 in *. lia. }
  assert (2 ^ EB mode <= 2 ^ 16) as P by (apply Z.pow_le_mono_r; lia). change (2 ^ 16) with 65536 in P.
  assert (2 ^ DB mode c <= 2 ^ EB mode) as P' by (apply Z.pow_le_mono_r; lia).
  assert (0 < 2 ^ EB mode) as P'' by (apply Z.pow_pos_nonneg; lia).
  unfold width6 in *. cbn [Z.eqb] in R0.
  unfold cend, cbase. fold mode. destruct (Z.eqb_spec e 0) as [->|Ne].
  - destruct sgn.
    + destruct (S (EB mode) _ HEB R0). split; [auto|]. split; [auto|]. discriminate.
    + split; [lia|]. split; [discriminate|]. intros; lia.
  - destruct (is_delta mode).
    + cbv zeta. set (x := if mode =? 15 then 0 else _).
      assert (0 <= x < 2 ^ EB mode).
      { unfold x. destruct (mode =? 15); [lia|]. apply Z.mod_pos_bound; lia. }
      destruct sgn.
      * destruct (S (EB mode) x HEB ltac:(lia)). split; [auto|]. split; [auto|]. discriminate.
      * split; [lia|]. split; [discriminate|]. intros; lia.
    + destruct sgn.
      * destruct (S (DB mode c) (stored b c e) ltac:(lia) R) as [? ?]. split; [auto|]. split; [|discriminate].
        intros; auto. match goal with H : _ -> se _ _ <> _ |- _ => apply H end; lia.
      * split; [lia|]. split; [discriminate|]. intros; lia.
Qed.

(** ** Index layout *)
Definition sub' (two : bool) (part t : Z) : Z := if two then znth (nth (Z.to_nat part) partition2 []) t else 0.
Definition anch' (two : bool) (part t : Z) : bool := (t =? 0) || two && (t =? znth anchor2 part).
Definition ioff (two : bool) (part t : Z) : Z :=
  (if two then 82 else 65) + (if two then 3 else 4) * t - zlen (filter (anch' two part) (zrange 0 t)).
Definition code_sub (m : build) (two : bool) (part i : Z) : res (Z * Z) :=
  if two then
    let* p := idx S_BPTC_P2 part in
    let* s := ushr m 64 p i in
    let s := Z.land s 1 in
    let* a := if negb (s =? 0) then idx S_BPTC_A2 part else Ok 0 in
    Ok (s, a)
  else Ok (0, 0).
Definition check6 (m : build) (two : bool) (part t : Z) : bool :=
  match code_sub m two part t with
  | Ok (s, a) => (s =? sub' two part t) && Bool.eqb (t =? a) (anch' two part t)
  | _ => false
  end && (0 <=? sub' two part t) && (sub' two part t <? if two then 2 else 1) &&
  (ioff two part (t + 1) =? ioff two part t + ((if two then 3 else 4) - if anch' two part t then 1 else 0)) &&
  ((if two then 82 else 65) <=? ioff two part t) && (ioff two part (t + 1) <=? 128).
Lemma check6_sweep : forallb (fun m => forallb (fun two => all_below 32 (fun part => all_below 16 (check6 m two part))) [true; false])
  [Checked; Wrapping] = true.
Proof. vm_cast_no_check (eq_refl true). Qed.
Lemma check6_facts m two part t : 0 <= part < 32 -> 0 <= t < 16 ->
  (exists a, code_sub m two part t = Ok (sub' two part t, a) /\ (t =? a) = anch' two part t) /\
  0 <= sub' two part t < (if two then 2 else 1) /\
  ioff two part (t + 1) = ioff two part t + ((if two then 3 else 4) - if anch' two part t then 1 else 0) /\
  0 <= ioff two part t /\ ioff two part (t + 1) <= 128.
Proof.
  intros Hp Ht. pose proof check6_sweep as S. rewrite forallb_forall in S.
  specialize (S m ltac:(destruct m; cbn; auto)). rewrite forallb_forall in S.
  specialize (S two ltac:(destruct two; cbn; auto)).
  pose proof (all_below_spec _ _ S part Hp) as A. cbv beta in A. pose proof (all_below_spec _ _ A t Ht) as C.
  unfold check6 in C. repeat (apply andb_prop in C as [C ?]).
  destruct (code_sub m two part t) as [[s a]| |]; try discriminate.
  apply andb_prop in C as [C1 C2]. apply Bool.eqb_prop in C2. apply Z.eqb_eq in C1. subst s.
  repeat match goal with H : (_ <=? _) = true |- _ => apply Z.leb_le in H end.
  split; [exists a; auto|]. split; [lia|]. split; [lia|]. destruct two; lia.
Qed.

Section Block.
Context (m : build) (data b : list Z).
Hypothesis Hread : forall pos n, 0 <= pos -> 0 <= n <= 15 -> pos + n <= 128 ->
  read m data pos n = Ok (bits b pos n, pos + n).

Let mode := bc6_mode b.

Lemma sign_row n F i : (forall c, 0 <= c < 3 -> 1 <= znth n c <= 16 /\ 0 <= F c i < 2 ^ znth n c) -> zlen n = 3 -> 0 <= i < 4 ->
  bc6_sign_extend m n i (eps_of F) = Ok (eps_of (fun c' i' => if i' =? i then se (znth n c') (F c' i) else F c' i')).
Proof.
  clear Hread. intros H Hn Hi. unfold bc6_sign_extend.
  apply (three_loop i _ F (fun c => se (znth n c) (F c i))); auto. intros c G Hc HG.
  rewrite idx_ok by lia. cbn [bind]. apply map_ep_ok; auto. destruct (H c Hc).
  rewrite HG. apply sign_extend_ok; auto.
Qed.

Lemma delta_row mi sgn ii G : bc6_valid mode = true -> mode_facts mode mi -> 1 <= ii < 4 -> (m = Wrapping \/ mode <> 15) ->
  (forall c, 0 <= c < 3 -> G c 0 = cbase sgn b c /\ G c ii = stored b c ii) ->
  bc6_delta m mi sgn ii (eps_of G) =
  Ok (eps_of (fun c' i' => if i' =? ii then cend sgn b c' ii else G c' i')).
Proof.
  clear Hread. intros V MF Hi Hm HG. unfold bc6_delta. rewrite (mf_tr _ _ MF), (mf_db _ _ MF), (mf_eb _ _ MF).
  pose proof (mf_EB _ _ MF) as HEB. pose proof (mf_EB12 _ _ MF) as HEB'. pose proof (mf_DB _ _ MF) as HDB.
  pose proof (mf_15 _ _ MF) as H15.
  assert (forall c, 0 <= c < 3 -> znth [DB mode 0; DB mode 1; DB mode 2] c = DB mode c) as Z3
    by (intros c Hc; enum c Hc; reflexivity).
  assert (forall c, 0 <= c < 3 -> 0 <= stored b c ii < 2 ^ DB mode c) as R.
  { intros c Hc. pose proof (stored_range b c ii V Hc ltac:(lia)) as R. unfold width6 in R.
    destruct (Z.eqb_spec ii 0); [lia|]. exact R. }
  set (F1 := fun c' i' => if i' =? ii then (if sgn || is_delta mode then se (DB mode c') (stored b c' ii) else stored b c' ii) else G c' i').
  assert ((if sgn || is_delta mode then bc6_sign_extend m [DB mode 0; DB mode 1; DB mode 2] ii (eps_of G) else Ok (eps_of G)) =
     Ok (eps_of F1)) as ->.
  { unfold F1. destruct (sgn || is_delta mode).
    - rewrite sign_row; [|intros c Hc; rewrite Z3 by auto; rewrite (proj2 (HG c Hc)); split; [destruct (HDB c Hc); lia|apply R; auto]
                         |reflexivity|lia].
      apply (f_equal Ok), eps_ext. intros c i Hc _. rewrite Z3 by auto. destruct (Z.eqb_spec i ii); auto.
      rewrite (proj2 (HG c Hc)). auto.
    - apply (f_equal Ok), eps_ext. intros c i Hc _. destruct (Z.eqb_spec i ii); auto. subst. apply HG; auto. }
  cbn [bind]. destruct (is_delta mode) eqn:ED.
  2:{ apply (f_equal Ok), eps_ext. intros c i Hc _. unfold F1. destruct (Z.eqb_spec i ii); auto.
      unfold cend. fold mode. rewrite ED. destruct (Z.eqb_spec ii 0); [lia|]. rewrite orb_false_r. auto. }
  set (X := fun c => if mode =? 15 then 0 else ((cbase sgn b c + se (DB mode c) (stored b c ii)) mod 65536) mod 2 ^ EB mode).
  set (F2 := fun c' i' => if i' =? ii then X c' else F1 c' i').
  assert (forall (k : list (list Z) -> res (list (list Z))), (let* one := ushl m 16 1 (EB mode) in
     let* mask := ua m 16 (one - 1) in
     let* eps := for_range 0 3 (fun c eps =>
        let* a := idx eps c in
        let* v0 := idx a 0 in
        map_ep eps c ii (fun v => Ok (Z.land (u16 (v + v0)) mask))) (eps_of F1) in k eps) = k (eps_of F2)) as HK.
  { intros k.
    assert (exists mask, (forall (k : Z -> res (list (list Z))), (let* one := ushl m 16 1 (EB mode) in let* mask := ua m 16 (one - 1) in k mask) = k mask) /\
      forall v, 0 <= v < 65536 -> Z.land v mask = if mode =? 15 then 0 else v mod 2 ^ EB mode) as (mask & HM & HL).
    { destruct (Z.eqb_spec mode 15) as [E|E].
      - destruct Hm as [Hm|Hm]; [|contradiction]. destruct (H15 E) as (-> & _). exists 0. split.
        + intros k'. rewrite Hm. reflexivity.
        + intros v _. apply Z.land_0_r.
      - exists (2 ^ EB mode - 1). split.
        + intros k'. rewrite ushl_ok by lia. cbn [bind].
          assert (2 ^ EB mode <= 2 ^ 12) by (apply Z.pow_le_mono_r; lia).
          assert (0 < 2 ^ EB mode) by (apply Z.pow_pos_nonneg; lia).
          rewrite Z.mul_1_l, (Z.mod_small (2 ^ EB mode)) by (change (2 ^ 12) with 4096 in *; lia).
          rewrite ua_ok by (change (2 ^ 12) with 4096 in *; lia). reflexivity.
        + intros v Hv. rewrite <- Z.land_ones by lia. rewrite Z.ones_equiv. f_equal. }
    rewrite HM. rewrite (three_loop ii _ F1 X); [reflexivity|lia|]. intros c G' Hc HG'.
    rewrite idx_eps by auto. cbn [bind]. rewrite idx_ok by (rewrite zlen_tab; lia). cbn [bind].
    rewrite znth_tab by lia. apply map_ep_ok; auto; [lia|]. rewrite !HG'. unfold F1.
    rewrite Z.eqb_refl. destruct (Z.eqb_spec 0 ii); [lia|]. rewrite orb_true_r.
    rewrite (proj1 (HG c Hc)). rewrite (Z.add_comm (se _ _)). rewrite HL by (apply Z.mod_pos_bound; lia).
    reflexivity. }
  rewrite HK.
  destruct sgn.
  - rewrite sign_row; [| |reflexivity|lia].
    + apply (f_equal Ok), eps_ext. intros c i Hc _.
      assert (znth [EB mode; EB mode; EB mode] c = EB mode) as -> by (clear - Hc; enum c Hc; reflexivity).
      unfold F2, F1. rewrite Z.eqb_refl. destruct (Z.eqb_spec i ii); auto.
      unfold cend. fold mode. rewrite ED. destruct (Z.eqb_spec ii 0); [lia|]. reflexivity.
    + intros c Hc.
      assert (znth [EB mode; EB mode; EB mode] c = EB mode) as -> by (clear - Hc; enum c Hc; reflexivity).
      split; [lia|]. unfold F2. rewrite Z.eqb_refl. unfold X.
      assert (0 < 2 ^ EB mode) by (apply Z.pow_pos_nonneg; lia).
      destruct (mode =? 15); [lia|]. apply Z.mod_pos_bound; lia.
  - apply (f_equal Ok), eps_ext. intros c i Hc _. unfold F2, F1. destruct (Z.eqb_spec i ii); auto.
    unfold cend. fold mode. rewrite ED. destruct (Z.eqb_spec ii 0); [lia|]. reflexivity.
Qed.

Definition U (sgn : bool) (c e : Z) : Z := unq_code sgn (EB mode) (cend sgn b c e).
Lemma U_range sgn c e : bc6_valid mode = true -> 0 <= c < 3 -> 0 <= e ->
  unquantize m (cend sgn b c e) sgn (EB mode) = Ok (U sgn c e) /\ 0 <= U sgn c e < 65536.
Proof.
  clear Hread. intros V Hc He. destruct (mode_facts6 _ V) as (mi & MF). pose proof (mf_EB _ _ MF).
  destruct (cend_range sgn b c e V Hc He) as (R1 & R2 & R3). apply unquantize_ok; auto.
Qed.

Lemma mix6_ok E s w : 0 <= s < 2 -> 0 <= w <= 64 -> 0 <= E (2 * s) < 65536 -> 0 <= E (2 * s + 1) < 65536 ->
  bc6_mix m (tab 4 E) (s * 2) (64 - w) w = Ok (lerp64 (E (2 * s)) (E (2 * s + 1)) w) /\
  0 <= lerp64 (E (2 * s)) (E (2 * s + 1)) w < 65536.
Proof.
  clear Hread. intros Hs Hw H0 H1. unfold bc6_mix, lerp64.
  rewrite idx_ok by (rewrite zlen_tab; lia). cbn [bind]. rewrite znth_tab by lia.
  replace (s * 2) with (2 * s) by lia.
  rewrite (ua_ok m 64) by lia. 
  generalize dependent (E (2 * s)). intros x Hx.
  assert (0 <= x * (64 - w) <= 65535 * (64 - w)) by (split; [apply Z.mul_nonneg_nonneg|apply Z.mul_le_mono_nonneg_r]; lia).
  rewrite ua_ok by lia. cbn [bind].
  rewrite idx_ok by (rewrite zlen_tab; lia). cbn [bind]. rewrite znth_tab by lia.
  generalize dependent (E (2 * s + 1)). intros y Hy.
  assert (0 <= y * w <= 65535 * w) by (split; [apply Z.mul_nonneg_nonneg|apply Z.mul_le_mono_nonneg_r]; lia).
  rewrite ua_ok by lia. cbn [bind]. rewrite ua_ok by lia. cbn [bind]. rewrite ua_ok by lia. cbn [bind].
  rewrite ushr_ok by lia. cbn [bind]. change (2 ^ 6) with 64. unfold u16.
  assert (0 <= (x * (64 - w) + y * w + 32) / 64 < 65536).
  { generalize dependent (x * (64 - w)). generalize dependent (y * w). intros. clear Hx Hy Hs. dlia. }
  split; [|auto]. apply (f_equal Ok). apply Z.mod_small. change (2 ^ 16) with 65536. auto.
Qed.

Lemma part6_range : 0 <= part6 b < 32.
Proof. unfold part6. destruct (_ =? 2); [|lia]. apply (bits_range b 77 5). lia. Qed.

Lemma texel6_step mi sgn F f : bc6_valid mode = true -> mode_facts mode mi ->
  (forall c e, 0 <= c < 3 -> 0 <= e < 2 * subsets6 mode -> F c e = U sgn c e) ->
  idx S_BPTC_FACTORS ((if two6 mode then 3 else 4) - 2) = Ok f ->
  forall t l, 0 <= t < 16 ->
  bc6_texel_body m data mi sgn (part6 b) (if two6 mode then 3 else 4) (eps_of F) f (t / 4) (t mod 4)
    (l, ioff (two6 mode) (part6 b) t) =
  let* l' := upd l t (code_texel sgn b t) in Ok (l', ioff (two6 mode) (part6 b) (t + 1)).
Proof.
  intros V MF HF Hf t l Ht. unfold bc6_texel_body.
  replace (t / 4 * 4) with (t - t mod 4) by (pose proof (Z.div_mod t 4); lia).
  rewrite ua_ok by (pose proof (Z.mod_le t 4); pose proof (Z.mod_pos_bound t 4); lia). cbn [bind].
  rewrite ua_ok by lia. cbn [bind]. replace (t - t mod 4 + t mod 4) with t by lia.
  rewrite (mf_pb _ _ MF), negb_involutive.
  destruct (check6_facts m (two6 mode) (part6 b) t part6_range Ht) as ((a & C1 & C2) & C3 & C4 & C5 & C6).
  match goal with |- context [bind (if two6 mode then ?x else ?y) _] =>
    change (if two6 mode then x else y) with (code_sub m (two6 mode) (part6 b) t) end.
  rewrite C1. cbn [bind]. rewrite C2.
  assert (sub' (two6 mode) (part6 b) t = subset6 b t) as Es.
  { unfold sub', subset6. fold mode. unfold two6. reflexivity. }
  assert (anch' (two6 mode) (part6 b) t = anchor6 b t) as Ea by reflexivity.
  rewrite Es in *. rewrite Ea in *.
  set (n := if two6 mode then 3 else 4) in *. assert (3 <= n <= 4) as Hn by (unfold n; destruct (two6 mode); lia).
  rewrite ua_ok by (destruct (anchor6 b t); lia). cbn [bind].
  rewrite Hread by (destruct (anchor6 b t); lia). cbn [bind]. rewrite <- C4.
  assert (bits b (ioff (two6 mode) (part6 b) t) (n - (if anchor6 b t then 1 else 0)) = index6 b t) as Ei by reflexivity.
  rewrite Ei.
  assert (0 <= index6 b t < 2 ^ n) as Bi.
  { rewrite <- Ei. pose proof (bits_range b (ioff (two6 mode) (part6 b) t) (n - (if anchor6 b t then 1 else 0)) ltac:(destruct (anchor6 b t); lia)).
    assert (2 ^ (n - (if anchor6 b t then 1 else 0)) <= 2 ^ n) by (apply Z.pow_le_mono_r; destruct (anchor6 b t); lia). lia. }
  destruct (weight_ok n (index6 b t) f ltac:(lia) Bi Hf) as (W & BW).
  rewrite W. cbn [bind]. change (znth (weights n) (index6 b t)) with (weight6 b t) in *.
  rewrite ua_ok by lia. cbn [bind].
  assert (0 <= subset6 b t < 2 /\ subset6 b t < subsets6 mode) as (Hs & Hs').
  { destruct (mf_sub _ _ MF) as [[E1 E2]|[E1 E2]]; rewrite E1 in C3; lia. }
  rewrite ua_ok by lia. cbn [bind].
  assert (forall c, 0 <= c < 3 -> bc6_channel m (eps_of F) c (subset6 b t * 2) (64 - weight6 b t) (weight6 b t) sgn =
    Ok (half_byte (code_half sgn b c t))) as HC.
  { intros c Hc. unfold bc6_channel. rewrite idx_eps by auto. cbn [bind].
    destruct (mix6_ok (F c) (subset6 b t) (weight6 b t)) as (M1 & M2); auto.
    - rewrite HF by lia. apply U_range; auto. lia.
    - rewrite HF by lia. apply U_range; auto. lia.
    - rewrite M1. cbn [bind]. destruct (finish_ok m sgn _ M2) as (Q1 & Q2). rewrite Q1. cbn [bind].
      rewrite f16_to_u8_ok by auto. unfold code_half. rewrite !HF by lia. reflexivity. }
  rewrite !HC by lia. cbn [bind]. rewrite color_rgba. unfold code_texel. fold mode. rewrite V. reflexivity.
Qed.

Lemma valid_sweep : all_below 32 (fun k => match idx S_BC6H_MODE_INFO k with
  | Ok mi => Bool.eqb (endpoint_bits mi =? 0) (negb (bc6_valid k)) | _ => false end) = true.
Proof. vm_compute. reflexivity. Qed.

Lemma mode_read : forall X (k : Z * Z * bool -> res X),
  (let* (md, pos) := read m data 0 2 in
   let md := u8 md in
   let* z :=
    if negb (Z.land md 2 =? 0) then
      let* (x, pos) := read m data pos 3 in
      let* x := ushl m 16 x 2 in
      let md := Z.lor md (u8 x) in
      let* mi := idx S_BC6H_MODE_INFO md in
      Ok (md, pos, endpoint_bits mi =? 0)
    else Ok (md, pos, false) in k z) = k (mode, mode_len mode, negb (bc6_valid mode)).
Proof.
  intros X k. rewrite Hread by lia. cbn [bind]. cbv zeta.
  pose proof (bits_range b 0 2 ltac:(lia)) as R. change (2 ^ 2) with 4 in R.
  pose proof (bits_range b 2 3 ltac:(lia)) as R3. change (2 ^ 3) with 8 in R3.
  assert (bits b 0 5 = bits b 0 2 + 4 * bits b 2 3) as E5.
  { change 5 with (2 + 3). rewrite bits_concat by lia. change (2 ^ 2) with 4. change (0 + 2) with 2. lia. }
  unfold mode, bc6_mode. rewrite E5. change (0 + 2) with 2. rewrite (Hread 2 3) by lia.
  set (x := bits b 0 2) in *. set (y := bits b 2 3) in *. clearbody x y. clear E5.
  assert (x = 0 \/ x = 1 \/ x = 2 \/ x = 3) as [-> |[-> |[-> | ->]]] by lia; try reflexivity.
  - change (u8 2) with 2. change (negb (Z.land 2 2 =? 0)) with true. cbv iota. cbn [bind].
    rewrite ushl_ok by lia. cbn [bind]. change (2 <? 2) with false. cbv iota.
    assert (y = 0 \/ y = 1 \/ y = 2 \/ y = 3 \/ y = 4 \/ y = 5 \/ y = 6 \/ y = 7) as Hy by lia.
    repeat destruct Hy as [-> |Hy]; try rewrite Hy; reflexivity.
  - change (u8 3) with 3. change (negb (Z.land 3 2 =? 0)) with true. cbv iota. cbn [bind].
    rewrite ushl_ok by lia. cbn [bind]. change (3 <? 2) with false. cbv iota.
    assert (y = 0 \/ y = 1 \/ y = 2 \/ y = 3 \/ y = 4 \/ y = 5 \/ y = 6 \/ y = 7) as Hy by lia.
    repeat destruct Hy as [-> |Hy]; try rewrite Hy; reflexivity.
Qed.

(** Steps common to both theorems on the block function: up to the first end point. *)
Definition after_base (sgn : bool) (outbuf : list Z) (mi : Bc6hModeInfo) : res (list Z) :=
  let eb := EB mode in
  let* eps := for_range 1 (subsets6 mode * 2) (bc6_delta m mi sgn)
    (eps_of (fun c e => if e =? 0 then cbase sgn b c else stored b c e)) in
  let* eps :=
    for_range 0 (subsets6 mode * 2) (fun ii eps =>
      for_range 0 3 (fun c eps => map_ep eps c ii (fun v => unquantize m v sgn eb)) eps) eps in
  let* (part, pos) := if two6 mode then read m data 77 5 else Ok (0, 65) in
  let ib := if two6 mode then 3 else 4 in
  let* k := ua m 64 (ib - 2) in
  let* factors := idx S_BPTC_FACTORS k in
  let* (outbuf, _) :=
    for_range 0 4 (fun yy st =>
      for_range 0 4 (fun xx st =>
        bc6_texel_body m data mi sgn part ib eps factors yy xx st) st) (outbuf, pos) in
  Ok outbuf.

Lemma block_to_base sgn outbuf : bc6_valid mode = true ->
  exists mi, mode_facts mode mi /\ decode_bc6_block m data outbuf sgn = after_base sgn outbuf mi.
Proof.
  intros V. destruct (mode_facts6 _ V) as (mi & MF). exists mi. split; [auto|].
  unfold decode_bc6_block.
  etransitivity; [apply (mode_read (list Z) (fun '(md, pos, reserved) => _))|]. cbv beta iota. rewrite V. cbn [negb]. cbv iota.
  change [[0; 0; 0; 0]; [0; 0; 0; 0]; [0; 0; 0; 0]] with (eps_of (fun _ _ => 0)).
  rewrite (reads_ok m data b Hread); [|unfold mode_len; destruct (mode <? 2); lia|apply (mf_reads _ _ MF)].
  cbn [bind]. rewrite (mf_info _ _ MF). cbn [bind]. cbv zeta. rewrite (mf_pb _ _ MF), negb_involutive, (mf_eb _ _ MF), (mf_total _ _ MF).
  assert (eps_of (fun c i => Z.lor 0 (gatherc b c i (bc6_reads mode) (mode_len mode))) = eps_of (stored b)) as ->.
  { apply eps_ext. intros c i Hc Hi. rewrite Z.lor_0_l. unfold stored. fold mode. rewrite (mf_layout _ _ MF).
    apply gather_conv; [lia|lia|apply (mf_reads _ _ MF)]. }
  assert ((if sgn then bc6_sign_extend m [EB mode; EB mode; EB mode] 0 (eps_of (stored b)) else Ok (eps_of (stored b))) =
    Ok (eps_of (fun c e => if e =? 0 then cbase sgn b c else stored b c e))) as ->.
  { destruct sgn.
    - rewrite sign_row; [| |reflexivity|lia].
      + apply (f_equal Ok), eps_ext. intros c i Hc _.
        assert (znth [EB mode; EB mode; EB mode] c = EB mode) as -> by (clear - Hc; enum c Hc; reflexivity). reflexivity.
      + intros c Hc. assert (znth [EB mode; EB mode; EB mode] c = EB mode) as -> by (clear - Hc; enum c Hc; reflexivity).
        split; [apply (mf_EB _ _ MF)|]. apply (stored_range b c 0); auto; lia.
    - apply (f_equal Ok), eps_ext. intros c i Hc _. destruct (Z.eqb_spec i 0); subst; auto. }
  cbn [bind]. unfold after_base.
  assert ((if two6 mode then 2 else 1) = subsets6 mode) as -> by (destruct (mf_sub _ _ MF) as [[-> ->]|[-> ->]]; auto).
  destruct (two6 mode); reflexivity.
Qed.

Lemma bc6_block_gen sgn outbuf : (m = Wrapping \/ mode <> 15) -> 16 <= zlen outbuf ->
  decode_bc6_block m data outbuf sgn = Ok (tab 16 (code_texel sgn b) ++ skipn 16 outbuf).
Proof.
  intros Hm Hlen. destruct (bc6_valid mode) eqn:V.
  - destruct (block_to_base sgn outbuf V) as (mi & MF & ->). unfold after_base.
    assert (subsets6 mode * 2 = 2 \/ subsets6 mode * 2 = 4) as HS by (destruct (mf_sub _ _ MF) as [[_ ->]|[_ ->]]; auto).
    rewrite (row_loop 1 (subsets6 mode * 2) _ _ (fun c e => cend sgn b c e)); [|auto|auto|].
    2:{ intros i G Hi HG. apply delta_row; auto; [lia|]. intros c Hc. rewrite !HG by lia.
        destruct (Z.eqb_spec i 0); [lia|]. auto. }
    cbn [bind].
    rewrite (row_loop 0 (subsets6 mode * 2) _ _ (U sgn)); [|auto|auto|].
    2:{ intros i G Hi HG. apply (three_loop i _ G (fun c => U sgn c i)); [lia|]. intros c G' Hc HG'.
        apply map_ep_ok; [lia|lia|]. rewrite HG', HG by lia.
        assert ((if (1 <=? i) && (i <? subsets6 mode * 2) then cend sgn b c i else if i =? 0 then cbase sgn b c else stored b c i) =
           cend sgn b c i) as ->.
        { destruct (Z.leb_spec 1 i), (Z.ltb_spec i (subsets6 mode * 2)); try lia; cbn [andb]; auto.
          assert (i = 0) as -> by lia. reflexivity. }
        apply U_range; auto; lia. }
    cbn [bind].
    assert ((if two6 mode then read m data 77 5 else Ok (0, 65)) = Ok (part6 b, ioff (two6 mode) (part6 b) 0)) as ->.
    { unfold part6. fold mode. fold (two6 mode). destruct (two6 mode); [|reflexivity]. rewrite Hread by lia. reflexivity. }
    cbn [bind]. rewrite ua_ok by (destruct (two6 mode); lia). cbn [bind].
    destruct (idx S_BPTC_FACTORS ((if two6 mode then 3 else 4) - 2)) as [f| |] eqn:Ef; try (destruct (two6 mode); discriminate).
    cbn [bind]. rewrite nested16.
    rewrite (store_loop (code_texel sgn b) (fun t => ioff (two6 mode) (part6 b) t) outbuf 16); [reflexivity|lia|].
    intros t l Ht Hl. apply texel6_step; auto. intros c e Hc He.
    destruct (Z.leb_spec 0 e), (Z.ltb_spec e (subsets6 mode * 2)); try lia. reflexivity.
  - unfold decode_bc6_block.
    etransitivity; [apply (mode_read (list Z) (fun '(md, pos, reserved) => _))|]. cbv beta iota. rewrite V. cbn [negb]. cbv iota.
    rewrite copy_into_ok by (cbn; lia). change (firstn (Z.to_nat 0) outbuf) with (@nil Z).
    cbn [app]. replace (Z.to_nat 0 + length (repeat 0 16))%nat with 16%nat by reflexivity.
    rewrite (tab_ext 16 _ (fun _ => 0)); [reflexivity|].
    intros i _. unfold code_texel. fold mode. rewrite V. reflexivity.
Qed.

(** In a build with overflow checks every block of mode 15 panics. *)
Lemma bc6_block_15 sgn outbuf : m = Checked -> mode = 15 -> decode_bc6_block m data outbuf sgn = Panic.
Proof.
  intros Hm H15. assert (bc6_valid mode = true) as V by (rewrite H15; reflexivity).
  destruct (block_to_base sgn outbuf V) as (mi & MF & ->). unfold after_base.
  destruct (mf_15 _ _ MF H15) as (E1 & E2 & E3).
  assert (subsets6 mode = 1) as -> by (destruct (mf_sub _ _ MF) as [[A B]|[A B]]; congruence).
  unfold for_range at 1. change (zrange 1 (1 * 2)) with [1]. cbn [for_list].
  unfold bc6_delta. rewrite (mf_tr _ _ MF), (mf_db _ _ MF), (mf_eb _ _ MF), E2. rewrite orb_true_r.
  rewrite sign_row; [| |reflexivity|lia].
  - cbn [bind]. rewrite E1, Hm. reflexivity.
  - intros c Hc. cbn [Z.eqb].
    assert (znth [DB mode 0; DB mode 1; DB mode 2] c = DB mode c) as -> by (clear - Hc; enum c Hc; reflexivity).
    destruct (mf_DB _ _ MF c Hc) as (D1 & _). split; [lia|]. apply (stored_range b c 1); auto; lia.
Qed.
End Block.
