(** * Proofs about the transmission of Huffman codes in crunch files. *)
From Verif Require Import Base BaseLemmas ModelCrn SpecCrn SpecCrnFile ProofHuff ProofCrnBits ProofCrnRead ProofAstcRange.

(** Enough room to look ahead: 7 more bits, or more bytes after the section. *)
Definition room (c : codec) (rest : list bool) : Prop := 7 <= zlen rest \/ c_end c + 1 < zlen (c_buf c).
Lemma room_app c a rest : room c rest -> room c (a ++ rest).
Proof. intros [H|H]; [left|right; exact H]. rewrite zlen_app. pose proof (zlen_nonneg a). lia. Qed.
Lemma room_same c c' rest : c_buf c' = c_buf c -> c_end c' = c_end c -> room c rest -> room c' rest.
Proof. intros E1 E2. unfold room. rewrite E1, E2. auto. Qed.

(** The state of a reader after which [rest] follows. *)
Definition before (c0 : codec) (rest : list bool) (c : codec) : Prop :=
  alive c rest /\ c_buf c = c_buf c0 /\ c_end c = c_end c0.
Lemma before_room c0 rest bs c : room c0 rest -> before c0 bs c -> room c rest.
Proof. intros R (_ & E1 & E2). eapply room_same; eauto. Qed.

Lemma take_raw m c0 n v bs c : 0 <= n <= 16 -> 0 <= v < 2 ^ n -> before c0 (bits_of n v ++ bs) c ->
  exists c', decode_bits m n c = Ok (v, c') /\ before c0 bs c'.
Proof.
  intros Hn Hv (A & E1 & E2). destruct (raw_alive m n c bs v Hn Hv A) as (c' & D & A' & F1 & F2).
  exists c'. split; [exact D|]. split; [exact A'|]. split; congruence.
Qed.
Lemma take_sym m c0 xs md s bs rest c : code_lengths xs -> coded xs s -> prepare_decoder_tables m xs = Ok md ->
  room c0 rest -> before c0 (code xs s ++ bs ++ rest) c ->
  exists c', decode m md c = Ok (s, c') /\ before c0 (bs ++ rest) c'.
Proof.
  intros HL HC HP R B. pose proof (before_room _ _ _ _ R B) as R'. destruct B as (A & E1 & E2).
  destruct (sym_alive m xs md c s (bs ++ rest) HL HC HP A) as (c' & D & A' & F1 & F2 & _).
  { destruct R' as [R'|R']; [left; rewrite zlen_app; pose proof (zlen_nonneg bs); lia|right; left; exact R']. }
  exists c'. split; [exact D|]. split; [exact A'|]. split; congruence.
Qed.

(** The lengths of the code-length code. *)
Definition spread (cl : list Z) (ks : list Z) : list Z := tab 21 (fun k => if existsb (Z.eqb k) ks then znth cl k else 0).

Lemma codelength_ok m c0 cl rest : forall ks done c, zlen cl = 21 ->
  Forall (fun k => 0 <= k < 21) ks -> Forall item_ok (map (fun k => Raw 3 (znth cl k)) ks) ->
  before c0 (flat_map item_bits (map (fun k => Raw 3 (znth cl k)) ks) ++ rest) c ->
  exists c', for_list ks (fun code st =>
    let '(sizes, c) := st in
    let* (s, c) := decode_bits m 3 c in
    let* sizes := upd sizes code (u8 s) in
    Ok (sizes, c)) (spread cl done, c) = Ok (spread cl (done ++ ks), c') /\ before c0 rest c'.
Proof.
  induction ks as [|k ks IH]; intros done c L HK HI B.
  - exists c. rewrite app_nil_r. split; [reflexivity|exact B].
  - inversion HK as [|? ? Hk HK']; subst. cbn [map] in HI. inversion HI as [|? ? Hi HI']; subst. apply (fun H => proj2 H) in Hi; pose proof Hi as Hv.
    cbn [map flat_map item_bits] in B. rewrite <- app_assoc in B.
    destruct (take_raw m c0 3 (znth cl k) _ c ltac:(lia) Hv B) as (c1 & D & B1).
    cbn [for_list]. rewrite D. cbn [bind]. unfold spread at 1. rewrite upd_tab_if by lia. cbn [bind].
    assert (tab 21 (fun j => if j =? k then u8 (znth cl k) else if existsb (Z.eqb j) done then znth cl j else 0) = spread cl (done ++ [k])) as ->.
    { unfold spread. apply tab_ext. intros j Hj. rewrite existsb_app. cbn [existsb]. rewrite orb_false_r.
      unfold u8. change (2 ^ 8) with 256. change (2 ^ 3) with 8 in Hv. rewrite Z.mod_small by lia.
      destruct (Z.eqb_spec j k) as [->|]; [rewrite orb_true_r|rewrite orb_false_r]; reflexivity. }
    destruct (IH (done ++ [k]) c1 L HK' HI' B1) as (c' & -> & B'). exists c'. rewrite <- app_assoc. split; [reflexivity|exact B'].
Qed.

Lemma order_range : Forall (fun k => 0 <= k < 21) length_order.
Proof. repeat (constructor; [lia|]). constructor. Qed.
Lemma order_all k : 0 <= k < 21 -> In k length_order.
Proof. intros H. assert (In k (zrange 0 21)) as I by (apply in_zrange; lia). cbv in I |- *. intuition. Qed.

Lemma spread_all cl num : zlen cl = 21 -> 0 <= num -> (forall k, In k (skipn (Z.to_nat num) length_order) -> znth cl k = 0) ->
  spread cl (firstn (Z.to_nat num) length_order) = cl.
Proof.
  intros L Hn H. unfold spread. symmetry. etransitivity; [apply (zlist_as_tab cl)|]. rewrite L. apply tab_ext. intros k Hk.
  destruct (existsb (Z.eqb k) (firstn (Z.to_nat num) length_order)) eqn:E; [reflexivity|].
  apply H. pose proof (order_all k Hk) as I. rewrite <- (firstn_skipn (Z.to_nat num)) in I. apply in_app_or in I. destruct I as [I|I]; [|exact I].
  exfalso. enough (existsb (Z.eqb k) (firstn (Z.to_nat num) length_order) = true) by congruence.
  apply existsb_exists. exists k. split; [exact I|apply Z.eqb_refl].
Qed.

(** ** Code lengths *)
Lemma znth_over l i : zlen l <= i -> znth l i = 0.
Proof. intros H. unfold znth. apply nth_overflow. unfold zlen in H. lia. Qed.
Definition padded (n : Z) (l : list Z) : list Z := tab n (znth l).

Lemma padded_full l : padded (zlen l) l = l.
Proof. unfold padded. symmetry. apply (zlist_as_tab l). Qed.
Lemma padded_zeros n l k : padded n (l ++ repeat 0 k) = padded n l.
Proof.
  apply tab_ext. intros i Hi. destruct (Z.lt_ge_cases i (zlen l)).
  - rewrite znth_app1 by lia. reflexivity.
  - rewrite znth_app2 by lia. rewrite (znth_over l) by lia. unfold znth. apply nth_repeat.
Qed.

Lemma padded_next n l v : zlen l < n -> upd (padded n l) (zlen l) v = Ok (padded n (l ++ [v])).
Proof.
  intros H. pose proof (zlen_nonneg l). unfold padded. rewrite upd_tab_if by lia. f_equal. apply tab_ext. intros i Hi.
  destruct (Z.eqb_spec i (zlen l)) as [->|].
  - rewrite znth_app2 by lia. rewrite Z.sub_diag. reflexivity.
  - destruct (Z.lt_ge_cases i (zlen l)); [rewrite znth_app1 by lia; reflexivity|].
    rewrite !znth_over; [reflexivity|rewrite zlen_app; change (zlen [v]) with 1; lia|lia].
Qed.
Lemma repeat_loop n v k : forall l, zlen l + Z.of_nat k <= n ->
  for_range (zlen l) (zlen l + Z.of_nat k) (fun i sizes => upd sizes i v) (padded n l) = Ok (padded n (l ++ repeat v k)).
Proof.
  induction k as [|k IH]; intros l H.
  - rewrite for_range_nil by lia. cbn [repeat]. rewrite app_nil_r. reflexivity.
  - rewrite for_range_cons by lia. rewrite padded_next by lia. cbn [bind].
    specialize (IH (l ++ [v])). rewrite zlen_app in IH. change (zlen [v]) with 1 in IH.
    replace (zlen l + Z.of_nat (S k)) with (zlen l + 1 + Z.of_nat k) by lia. rewrite IH by lia.
    rewrite <- app_assoc. reflexivity.
Qed.

Lemma zlen_run v k : 0 <= k -> zlen (@repeat Z v (Z.to_nat k)) = k.
Proof. intros H. unfold zlen. rewrite repeat_length, Z2Nat.id by lia. reflexivity. Qed.

Lemma spells_longer cl l items sizes : spells cl l items sizes -> Forall item_ok items -> zlen l <= zlen sizes /\ (items <> [] -> zlen l < zlen sizes).
Proof.
  induction 1 as [|v l items sizes Hl H IH|v l items sizes H IH|v l items sizes H IH|x v l items sizes Hx H IH|x v l items sizes Hx H IH]; intros HF.
  - split; [lia|congruence].
  - inversion HF as [|? ? _ HF']; subst. destruct (IH HF') as [K _]. rewrite zlen_app in K. change (zlen [v]) with 1 in K. split; lia.
  - inversion HF as [|? ? _ HF']; subst. inversion HF' as [|? ? Hv HF'']; subst. cbn in Hv. destruct (IH HF'') as [K _]. rewrite zlen_app in K.
    rewrite zlen_run in K by lia. split; lia.
  - inversion HF as [|? ? _ HF']; subst. inversion HF' as [|? ? Hv HF'']; subst. cbn in Hv. destruct (IH HF'') as [K _]. rewrite zlen_app in K.
    rewrite zlen_run in K by lia. split; lia.
  - inversion HF as [|? ? _ HF']; subst. inversion HF' as [|? ? Hv HF'']; subst. cbn in Hv. destruct (IH HF'') as [K _]. rewrite app_assoc, zlen_app in K.
    rewrite zlen_run in K by lia. split; lia.
  - inversion HF as [|? ? _ HF']; subst. inversion HF' as [|? ? Hv HF'']; subst. cbn in Hv. destruct (IH HF'') as [K _]. rewrite app_assoc, zlen_app in K.
    rewrite zlen_run in K by lia. split; lia.
Qed.

Lemma item_sym xs s : item_ok (Sym xs s) -> code_lengths xs /\ coded xs s.
Proof. exact (fun H => H). Qed.
Lemma item_raw n v : item_ok (Raw n v) -> 0 <= v < 2 ^ n.
Proof. exact (fun H => proj2 H). Qed.
Lemma Forall_firstn' {A} (P : A -> Prop) n l : Forall P l -> Forall P (firstn n l).
Proof. revert n. induction l as [|x l IH]; intros [|n] H; cbn [firstn]; auto. inversion H; subst. constructor; auto. Qed.

Section Receive.
Context (m : build) (c0 : codec) (cl : list Z) (dm : model) (rest : list bool).
Hypothesis HP : prepare_decoder_tables m cl = Ok dm.
Hypothesis HR : room c0 rest.

Definition lengths (l : list Z) : Prop := Forall (fun x => 0 <= x <= 16) l.
Lemma lengths_repeat l x k : 0 <= x <= 16 -> lengths l -> lengths (l ++ repeat x k).
Proof. intros Hx Hl. apply Forall_app. split; [exact Hl|]. apply Forall_forall. intros y Hy. apply repeat_spec in Hy. lia. Qed.

Lemma receive_loop_ok l items sizes : spells cl l items sizes -> Forall item_ok items -> lengths l ->
  forall fuel c, zlen sizes - zlen l <= Z.of_nat fuel -> before c0 (flat_map item_bits items ++ rest) c ->
  exists c', receive_loop m fuel dm (zlen sizes) (padded (zlen sizes) l, zlen l, c) = Ok (sizes, c') /\ before c0 rest c'.
Proof.
  induction 1 as [sizes|v l items sizes Hl H IH|v l items sizes H IH|v l items sizes H IH|x v l items sizes Hx H IH|x v l items sizes Hx H IH];
    intros HF HN fuel c Hf B.
  - exists c. destruct fuel; cbn [receive_loop]; rewrite Z.ltb_irrefl, padded_full; auto.
  - destruct (spells_longer _ _ _ _ (spells_length cl v l items sizes Hl H) HF) as [_ K]. specialize (K ltac:(discriminate)).
    inversion HF as [|? ? Hs HF']; subst. apply item_sym in Hs. destruct Hs as [HL HC]. cbn [flat_map item_bits] in B. rewrite <- app_assoc in B.
    destruct (take_sym m c0 cl dm v _ rest c HL HC HP HR B) as (c1 & D1 & B1).
    destruct fuel as [|fuel]; [lia|]. cbn [receive_loop]. destruct (Z.ltb_spec (zlen l) (zlen sizes)); [|lia].
    unfold receive_step. rewrite D1. cbn [bind]. destruct (Z.leb_spec v 16); [|lia].
    unfold u8. change (2 ^ 8) with 256. rewrite (Z.mod_small v) by lia. rewrite padded_next by lia. cbn [bind].
    destruct (IH HF' (lengths_repeat l v 1 Hl HN) fuel c1) as (c' & E & B'); [rewrite zlen_app; change (zlen [v]) with 1; lia|exact B1|].
    rewrite zlen_app in E. change (zlen [v]) with 1 in E. exists c'. auto.
  - destruct (spells_longer _ _ _ _ (spells_zeros cl v l items sizes H) HF) as [_ K]. specialize (K ltac:(discriminate)).
    inversion HF as [|? ? Hs HF']; subst. apply item_sym in Hs. destruct Hs as [HL HC]. inversion HF' as [|? ? Hv HF'']; subst. apply item_raw in Hv.
    pose proof (spells_longer _ _ _ _ H HF'') as [K2 _]. rewrite zlen_app, zlen_run in K2 by lia.
    cbn [flat_map item_bits] in B. rewrite <- !app_assoc in B.
    destruct (take_sym m c0 cl dm 17 (bits_of 3 v ++ flat_map item_bits items) rest c HL HC HP HR) as (c1 & D1 & B1); [rewrite <- app_assoc; exact B|].
    rewrite <- app_assoc in B1. destruct (take_raw m c0 3 v _ c1 ltac:(lia) Hv B1) as (c2 & D2 & B2).
    destruct fuel as [|fuel]; [lia|]. cbn [receive_loop]. destruct (Z.ltb_spec (zlen l) (zlen sizes)); [|lia].
    unfold receive_step. rewrite D1. cbn [bind Z.leb Z.compare Pos.compare Pos.compare_cont].
    change (17 =? SMALL_ZERO_RUN_CODE) with true. cbn [bind].
    change SMALL_ZERO_RUN_EXTRA_BITS with 3. change MIN_SMALL_ZERO_RUN_SIZE with 3. rewrite D2. cbn [bind].
    destruct (Z.ltb_spec (zlen sizes - zlen l) (v + 3)); [lia|]. cbn [bind].
    destruct (IH HF'' (lengths_repeat l 0 _ ltac:(lia) HN) fuel c2) as (c' & E & B'); [rewrite zlen_app, zlen_run by lia; lia|exact B2|].
    rewrite zlen_app, zlen_run, padded_zeros in E by lia. exists c'. auto.
  - destruct (spells_longer _ _ _ _ (spells_many_zeros cl v l items sizes H) HF) as [_ K]. specialize (K ltac:(discriminate)).
    inversion HF as [|? ? Hs HF']; subst. apply item_sym in Hs. destruct Hs as [HL HC]. inversion HF' as [|? ? Hv HF'']; subst. apply item_raw in Hv.
    pose proof (spells_longer _ _ _ _ H HF'') as [K2 _]. rewrite zlen_app, zlen_run in K2 by lia.
    cbn [flat_map item_bits] in B. rewrite <- !app_assoc in B.
    destruct (take_sym m c0 cl dm 18 (bits_of 7 v ++ flat_map item_bits items) rest c HL HC HP HR) as (c1 & D1 & B1); [rewrite <- app_assoc; exact B|].
    rewrite <- app_assoc in B1. destruct (take_raw m c0 7 v _ c1 ltac:(lia) Hv B1) as (c2 & D2 & B2).
    destruct fuel as [|fuel]; [lia|]. cbn [receive_loop]. destruct (Z.ltb_spec (zlen l) (zlen sizes)); [|lia].
    unfold receive_step. rewrite D1. cbn [bind Z.leb Z.compare Pos.compare Pos.compare_cont].
    change (18 =? SMALL_ZERO_RUN_CODE) with false. change (18 =? LARGE_ZERO_RUN_CODE) with true. cbn [bind].
    change LARGE_ZERO_RUN_EXTRA_BITS with 7. change MIN_LARGE_ZERO_RUN_SIZE with 11. rewrite D2. cbn [bind].
    destruct (Z.ltb_spec (zlen sizes - zlen l) (v + 11)); [lia|]. cbn [bind].
    destruct (IH HF'' (lengths_repeat l 0 _ ltac:(lia) HN) fuel c2) as (c' & E & B'); [rewrite zlen_app, zlen_run by lia; lia|exact B2|].
    rewrite zlen_app, zlen_run, padded_zeros in E by lia. exists c'. auto.
  - destruct (spells_longer _ _ _ _ (spells_repeat cl x v l items sizes Hx H) HF) as [_ K]. specialize (K ltac:(discriminate)).
    inversion HF as [|? ? Hs HF']; subst. apply item_sym in Hs. destruct Hs as [HL HC]. inversion HF' as [|? ? Hv HF'']; subst. apply item_raw in Hv.
    pose proof (spells_longer _ _ _ _ H HF'') as [K2 _]. rewrite app_assoc, zlen_app, zlen_run in K2 by lia.
    cbn [flat_map item_bits] in B. rewrite <- !app_assoc in B.
    destruct (take_sym m c0 cl dm 19 (bits_of 2 v ++ flat_map item_bits items) rest c HL HC HP HR) as (c1 & D1 & B1); [rewrite <- app_assoc; exact B|].
    rewrite <- app_assoc in B1. destruct (take_raw m c0 2 v _ c1 ltac:(lia) Hv B1) as (c2 & D2 & B2).
    destruct fuel as [|fuel]; [lia|]. cbn [receive_loop].
    rewrite app_assoc in IH. set (l1 := l ++ [x]) in *. specialize (fun N => IH HF'' N fuel c2).
    assert (0 < zlen l1 /\ znth l1 (zlen l1 - 1) = x) as [L1 X1].
    { unfold l1. rewrite zlen_app. change (zlen [x]) with 1. pose proof (zlen_nonneg l). split; [lia|].
      rewrite znth_app2 by lia. replace (zlen l + 1 - 1 - zlen l) with 0 by lia. reflexivity. }
    destruct (Z.ltb_spec (zlen l1) (zlen sizes)); [|lia].
    unfold receive_step. rewrite D1. cbn [bind Z.leb Z.compare Pos.compare Pos.compare_cont].
    change (19 =? SMALL_ZERO_RUN_CODE) with false. change (19 =? LARGE_ZERO_RUN_CODE) with false. change (19 =? SMALL_REPEAT_CODE) with true. cbn [bind orb].
    change SMALL_NON_ZERO_RUN_EXTRA_BITS with 2. change SMALL_MIN_NON_ZERO_RUN_SIZE with 3. rewrite D2. cbn [bind].
    destruct (Z.eqb_spec (zlen l1) 0); [lia|]. destruct (Z.ltb_spec (zlen sizes - zlen l1) (v + 3)); [lia|]. cbn [orb].
    unfold padded at 1. rewrite idx_tab by lia. rewrite X1. cbn [bind]. destruct (Z.eqb_spec x 0); [lia|].
    assert (0 <= x <= 16) as Rx by (apply Forall_app in HN; destruct HN as [_ HN]; inversion HN; auto).
    unfold u8. change (2 ^ 8) with 256. rewrite (Z.mod_small x) by lia.
    pose proof (repeat_loop (zlen sizes) x (Z.to_nat (v + 3)) l1) as RL. rewrite Z2Nat.id in RL by lia. fold (padded (zlen sizes) l1). rewrite RL by lia. cbn [bind].
    rewrite zlen_app, zlen_run in IH by lia.
    destruct (IH ltac:(apply lengths_repeat; auto) ltac:(lia) B2) as (c' & E & B'). exists c'. auto.
  - destruct (spells_longer _ _ _ _ (spells_many_repeat cl x v l items sizes Hx H) HF) as [_ K]. specialize (K ltac:(discriminate)).
    inversion HF as [|? ? Hs HF']; subst. apply item_sym in Hs. destruct Hs as [HL HC]. inversion HF' as [|? ? Hv HF'']; subst. apply item_raw in Hv.
    pose proof (spells_longer _ _ _ _ H HF'') as [K2 _]. rewrite app_assoc, zlen_app, zlen_run in K2 by lia.
    cbn [flat_map item_bits] in B. rewrite <- !app_assoc in B.
    destruct (take_sym m c0 cl dm 20 (bits_of 6 v ++ flat_map item_bits items) rest c HL HC HP HR) as (c1 & D1 & B1); [rewrite <- app_assoc; exact B|].
    rewrite <- app_assoc in B1. destruct (take_raw m c0 6 v _ c1 ltac:(lia) Hv B1) as (c2 & D2 & B2).
    destruct fuel as [|fuel]; [lia|]. cbn [receive_loop].
    rewrite app_assoc in IH. set (l1 := l ++ [x]) in *. specialize (fun N => IH HF'' N fuel c2).
    assert (0 < zlen l1 /\ znth l1 (zlen l1 - 1) = x) as [L1 X1].
    { unfold l1. rewrite zlen_app. change (zlen [x]) with 1. pose proof (zlen_nonneg l). split; [lia|].
      rewrite znth_app2 by lia. replace (zlen l + 1 - 1 - zlen l) with 0 by lia. reflexivity. }
    destruct (Z.ltb_spec (zlen l1) (zlen sizes)); [|lia].
    unfold receive_step. rewrite D1. cbn [bind Z.leb Z.compare Pos.compare Pos.compare_cont].
    change (20 =? SMALL_ZERO_RUN_CODE) with false. change (20 =? LARGE_ZERO_RUN_CODE) with false. change (20 =? SMALL_REPEAT_CODE) with false. change (20 =? LARGE_REPEAT_CODE) with true. cbn [bind orb].
    change LARGE_NON_ZERO_RUN_EXTRA_BITS with 6. change LARGE_MIN_NON_ZERO_RUN_SIZE with 7. rewrite D2. cbn [bind].
    destruct (Z.eqb_spec (zlen l1) 0); [lia|]. destruct (Z.ltb_spec (zlen sizes - zlen l1) (v + 7)); [lia|]. cbn [orb].
    unfold padded at 1. rewrite idx_tab by lia. rewrite X1. cbn [bind]. destruct (Z.eqb_spec x 0); [lia|].
    assert (0 <= x <= 16) as Rx by (apply Forall_app in HN; destruct HN as [_ HN]; inversion HN; auto).
    unfold u8. change (2 ^ 8) with 256. rewrite (Z.mod_small x) by lia.
    pose proof (repeat_loop (zlen sizes) x (Z.to_nat (v + 7)) l1) as RL. rewrite Z2Nat.id in RL by lia. fold (padded (zlen sizes) l1). rewrite RL by lia. cbn [bind].
    rewrite zlen_app, zlen_run in IH by lia.
    destruct (IH ltac:(apply lengths_repeat; auto) ltac:(lia) B2) as (c' & E & B'). exists c'. auto.
Qed.
End Receive.

Lemma receive_model_ok m c0 sizes items rest c : sends sizes items -> code_lengths sizes -> Forall item_ok items -> room c0 rest ->
  before c0 (flat_map item_bits items ++ rest) c ->
  exists md c', receive_model m c = Ok (md, c') /\ prepare_decoder_tables m sizes = Ok md /\ before c0 rest c'.
Proof.
  intros S HL HI HR B. destruct S as [num cl items Hn Lc Z0 Sp].
  inversion HI as [|? ? H1 HI1]; subst. inversion HI1 as [|? ? H2 HI2]; subst. apply Forall_app in HI2. destruct HI2 as [HI3 HI4].
  apply item_raw in H1. apply item_raw in H2. cbn [flat_map item_bits] in B. rewrite <- !app_assoc, flat_map_app in B. rewrite <- app_assoc in B.
  unfold receive_model. change (total_bits MAX_SUPPORTED_SYMS) with 14.
  destruct (take_raw m c0 14 (zlen sizes) _ c ltac:(lia) H1 B) as (c1 & -> & B1). cbn [bind].
  destruct (take_raw m c0 5 num _ c1 ltac:(lia) H2 B1) as (c2 & -> & B2). cbn [bind].
  destruct (Z.ltb_spec num 1); [lia|]. change MAX_CODELENGTH_CODES with 21. destruct (Z.ltb_spec 21 num); [lia|]. cbn [orb].
  unfold codelength_sizes. change (repeat 0 (Z.to_nat MAX_CODELENGTH_CODES)) with (spread cl []). change MOST_PROBABLE_CODELENGTH_CODES with length_order.
  destruct (codelength_ok m c0 cl (flat_map item_bits items ++ rest) (firstn (Z.to_nat num) length_order) [] c2 Lc) as (c3 & -> & B3); auto.
  { apply Forall_firstn'. exact order_range. }
  cbn [bind app]. rewrite spread_all by (auto; lia).
  assert (code_lengths cl) as Hcl.
  { inversion Sp; subst; try (inversion HI4 as [|? ? Hs _]; apply item_sym in Hs; exact (proj1 Hs)).
    exfalso. destruct HL as [[? _] _]. cbn in *. lia. }
  destruct (prepare_some m cl Hcl) as (dm & E). rewrite E. cbn [bind].
  replace (repeat 0 (Z.to_nat (zlen sizes))) with (padded (zlen sizes) []).
  2: { pose proof (zlen_nonneg sizes) as P. unfold padded. rewrite (repeat_tab 0 (zlen sizes)) by lia. apply tab_ext. intros i _. unfold znth. destruct (Z.to_nat i); reflexivity. }
  destruct (receive_loop_ok m c0 cl dm rest E HR [] items sizes Sp HI4 ltac:(constructor) (Z.to_nat (zlen sizes)) c3) as (c4 & E4 & B4); [change (zlen []) with 0; lia|exact B3|].
  change (zlen (@nil Z)) with 0 in E4. rewrite E4.
  cbn [bind]. destruct (prepare_some m sizes HL) as (md & ->). cbn [bind]. exists md, c4. auto.
Qed.
