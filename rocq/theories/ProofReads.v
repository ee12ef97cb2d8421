(** * Exactly which sequences of reads succeed *)
From Verif Require Import Base BaseLemmas ModelCrn SpecCrn SpecReads ProofCrnBits ProofHuff ProofCrnRead.

Definition ahead (count : Z) : Z := if count <? 16 then 16 else if count <? 24 then 8 else 0.

Lemma peek_shape c pos b p : peek_byte c pos = Ok (b, p) -> pos <= c_end c -> p = Z.min (c_end c) (pos + 1).
Proof.
  unfold peek_byte. intros H L. apply bind_ok_inv in H as (x & _ & H). destruct (Z.leb_spec pos (c_end c)); [|lia].
  destruct (Z.ltb_spec pos (c_end c)); inversion H; lia.
Qed.
Lemma refill_shape m c c' : refill m c = Ok c' -> c_pos c <= c_end c ->
  c_bit_count c' = c_bit_count c + ahead (c_bit_count c) /\ c_pos c' = Z.min (c_end c) (c_pos c + ahead (c_bit_count c) / 8).
Proof.
  unfold refill, ahead. intros H L. destruct (Z.ltb_spec (c_bit_count c) 24), (Z.ltb_spec (c_bit_count c) 16); try lia.
  - apply bind_ok_inv in H as ((b0 & p0) & Q0 & H). apply bind_ok_inv in H as ((b1 & p1) & Q1 & H). apply bind_ok_inv in H as (s & _ & H).
    apply peek_shape in Q0; [|exact L]. apply peek_shape in Q1; [|lia]. inversion H. cbn [c_bit_count c_pos].
    change (16 / 8) with 2. lia.
  - apply bind_ok_inv in H as ((b0 & p0) & Q0 & H). apply bind_ok_inv in H as (s & _ & H).
    apply peek_shape in Q0; [|exact L]. inversion H. cbn [c_bit_count c_pos]. change (8 / 8) with 1. lia.
  - inversion H; subst. change (0 / 8) with 0. lia.
Qed.
Lemma decode_shape m xs md c s bs c' : code_lengths xs -> coded xs s -> prepare_decoder_tables m xs = Ok md ->
  carries c (code xs s ++ bs) -> c_pos c < zlen (c_buf c) -> decode m md c = Ok (s, c') ->
  exists c1, refill m c = Ok c1 /\ c_pos c' = c_pos c1 /\ c_bit_count c' = c_bit_count c1 - zlen (code xs s).
Proof.
  intros HL Hc HP H Hl. destruct (code_facts xs s HL Hc) as (Rs & Lc & F1 & F2 & Fv).
  destruct HL as (Hn & HF & HK). rewrite <- weight_all in HK by exact HF. destruct (prepare_ok m xs Hn HF HK (proj1 Hn)) as (md' & E & Es & LS).
  rewrite HP in E. injection E as <-. unfold decode.
  destruct (refill_ok m c _ H Hl) as (c1 & -> & H1 & C16 & B1 & E1 & P1). cbn [bind].
  destruct (drop_ok m c1 (code xs s) bs H1 ltac:(lia) ltac:(lia)) as (rest & U1 & U2 & Rb & Rc & K).
  assert (starts xs (c_bit_buf c1 / 2 ^ 16) s) as St.
  { split; [exact Hc|]. specialize (U2 ltac:(lia)). rewrite Lc in U2. rewrite ushr_ok in U2 by lia.
    assert (c_bit_buf c1 / 2 ^ (32 - znth xs s) = value (code xs s)) as U3 by congruence. rewrite <- Fv, <- U3.
    assert (2 ^ (32 - znth xs s) = 2 ^ 16 * 2 ^ (16 - znth xs s)) as -> by (rewrite <- Z.pow_add_r by lia; f_equal; lia).
    assert (0 < 2 ^ (16 - znth xs s)) as Hp by (apply Z.pow_pos_nonneg; lia).
    rewrite <- Z.div_div by lia. set (T := c_bit_buf c1 / 2 ^ 16).
    pose proof (Z.div_mod T (2 ^ (16 - znth xs s)) ltac:(lia)). pose proof (Z.mod_pos_bound T (2 ^ (16 - znth xs s)) Hp). lia. }
  rewrite (LS _ _ Rb St). cbn [bind]. rewrite <- Lc, U1. cbn [bind]. intros D. inversion D.
  exists c1. split; [reflexivity|]. cbn [c_pos c_bit_count]. split; [reflexivity|lia].
Qed.

Lemma get_bits_loop_shape m n : forall fuel c c', get_bits_loop m fuel n c = Ok c' ->
  8 * c_pos c' - c_bit_count c' = 8 * c_pos c - c_bit_count c /\ n <= c_bit_count c' /\
  (n <= c_bit_count c -> c_pos c' = c_pos c) /\ (c_bit_count c < n -> c_bit_count c' < n + 8).
Proof.
  induction fuel as [|fuel IH]; intros c c'; cbn [get_bits_loop].
  - destruct (Z.ltb_spec (c_bit_count c) n); [discriminate|]. intros E. inversion E; subst. lia.
  - destruct (Z.ltb_spec (c_bit_count c) n) as [Hc|Hc]; [|intros E; inversion E; subst; lia].
    intros E. apply bind_ok_inv in E as (b & _ & E). destruct (BIT_BUF_SIZE <? c_bit_count c + 8); [discriminate|].
    apply bind_ok_inv in E as (x & _ & E). apply IH in E. cbn [c_pos c_bit_count] in E. lia.
Qed.
Lemma raw_shape m n c v c' : 0 <= n <= 16 -> decode_bits m n c = Ok (v, c') -> 0 <= c_bit_count c ->
  8 * c_pos c' - c_bit_count c' = 8 * c_pos c - c_bit_count c + n /\ 0 <= c_bit_count c' /\
  (n <= c_bit_count c -> c_pos c' = c_pos c) /\ (c_bit_count c < n -> c_bit_count c' < 8).
Proof.
  intros Hn. unfold decode_bits. destruct (Z.eqb_spec n 0) as [->|N0]; [intros E; inversion E; subst; lia|].
  destruct (Z.ltb_spec 16 n); [lia|]. unfold get_bits. destruct (Z.ltb_spec 32 n); [lia|].
  intros E C. apply bind_ok_inv in E as (c1 & G & E). apply bind_ok_inv in E as (a & _ & E). apply bind_ok_inv in E as (b & _ & E).
  apply get_bits_loop_shape in G. inversion E. cbn [c_pos c_bit_count]. lia.
Qed.

Lemma carries_count c bs : carries c bs -> 0 <= c_bit_count c.
Proof. intros (_ & _ & _ & B & more & (L & _) & _). pose proof (zlen_nonneg B). lia. Qed.

(** One item, from a state with bytes left. *)
Lemma read_one m i c bs : item_ok i -> carries c (item_bits i ++ bs) -> (is_raw i = false -> c_pos c < zlen (c_buf c)) ->
  exists c', read_item m i c = Ok (item_value i, c') /\ carries c' bs /\ c_buf c' = c_buf c /\ c_end c' = c_end c /\
    match i with
    | Raw n _ => 8 * c_pos c' - c_bit_count c' = 8 * c_pos c - c_bit_count c + n /\
        (n <= c_bit_count c -> c_pos c' = c_pos c) /\ (c_bit_count c < n -> c_bit_count c' < 8)
    | Sym xs s => c_pos c' < zlen (c_buf c') /\ (c_pos c <= c_end c ->
        c_bit_count c' = c_bit_count c + ahead (c_bit_count c) - zlen (code xs s) /\
        c_pos c' = Z.min (c_end c) (c_pos c + ahead (c_bit_count c) / 8))
    end.
Proof.
  destruct i as [xs s|n v]; cbn [item_ok item_bits read_item item_value is_raw]; intros Hi H P.
  - destruct Hi as [HL Hc]. specialize (P eq_refl). destruct (prepare_some m xs HL) as (md & Emd). rewrite Emd. cbn [bind].
    destruct (decode_ok m xs md c s bs HL Hc Emd H P) as (c' & D & K & B & E & P').
    destruct (decode_shape m xs md c s bs c' HL Hc Emd H P D) as (c1 & R & P1 & C1).
    exists c'. split; [exact D|]. split; [exact K|]. split; [exact B|]. split; [exact E|]. split; [rewrite B; exact P'|].
    intros L. apply refill_shape in R; [|exact L]. lia.
  - destruct Hi as [Hn Hv]. destruct (decode_bits_ok m n c bs v ltac:(lia) Hv H) as (c' & D & K & B & E).
    exists c'. pose proof (raw_shape m n c v c' Hn D (carries_count _ _ H)) as S. repeat (split; [assumption|]). intuition lia.
Qed.
Lemma zlen_item_bits i : item_ok i -> match i with Raw n _ => zlen (item_bits i) = n | Sym _ _ => True end.
Proof. destruct i as [xs s|n v]; [auto|]. intros [Hn _]. cbn [item_bits]. apply zlen_bits_of. lia. Qed.

(** All remaining bits are in the bit buffer. *)
Lemma phase_buffered m rest : forall l c, Forall item_ok l -> carries c (flat_map item_bits l ++ rest) ->
  c_pos c < zlen (c_buf c) -> c_pos c <= c_end c -> zlen (flat_map item_bits l ++ rest) <= c_bit_count c ->
  exists c', read_items m l c = Ok (map item_value l, c').
Proof.
  induction l as [|i l IH]; intros c HF H P Pe C.
  - exists c. reflexivity.
  - inversion HF as [|? ? Hi HF']; subst. cbn [flat_map] in H, C. rewrite <- app_assoc in H, C.
    destruct (read_one m i c _ Hi H (fun _ => P)) as (c1 & R & K & B & E & S).
    cbn [read_items map]. rewrite R. cbn [bind]. rewrite zlen_app in C. pose proof (zlen_item_bits i Hi) as Li.
    destruct (IH c1 HF' K) as (c' & D).
    + destruct i; [exact (proj1 S)|]. rewrite B. pose proof (zlen_nonneg (flat_map item_bits l ++ rest)). lia.
    + rewrite E. destruct i; [destruct S as (_ & S); specialize (S Pe); lia|].
      pose proof (zlen_nonneg (flat_map item_bits l ++ rest)). lia.
    + destruct i as [xs s|n v].
      * destruct S as (_ & S). specialize (S Pe). cbn [item_bits] in C. unfold ahead in S.
        destruct (c_bit_count c <? 16), (c_bit_count c <? 24); lia.
      * rewrite Li in C. pose proof (zlen_nonneg (flat_map item_bits l ++ rest)).
        destruct S as (S1 & S2 & _). specialize (S2 ltac:(lia)). lia.
    + rewrite D. cbn [bind]. exists c'. reflexivity.
Qed.

(** A raw read has taken the last byte. *)
Lemma phase_gone m rest : forall l c, Forall item_ok l -> carries c (flat_map item_bits l ++ rest) ->
  c_pos c = zlen (c_buf c) -> c_bit_count c < 8 ->
  if forallb is_raw l then exists c', read_items m l c = Ok (map item_value l, c') else read_items m l c = Panic.
Proof.
  induction l as [|i l IH]; intros c HF H P C.
  - exists c. reflexivity.
  - inversion HF as [|? ? Hi HF']; subst. cbn [flat_map] in H. rewrite <- app_assoc in H. cbn [forallb].
    destruct i as [xs s|n v]; cbn [is_raw andb].
    + cbn [read_items read_item]. destruct Hi as [HL Hc]. destruct (prepare_some m xs HL) as (md & Emd). rewrite Emd. cbn [bind].
      unfold decode, refill. destruct (Z.ltb_spec (c_bit_count c) 24); [|lia]. destruct (Z.ltb_spec (c_bit_count c) 16); [|lia].
      assert (peek_byte c (c_pos c) = Panic) as -> by (unfold peek_byte; rewrite idx_panic by lia; reflexivity). reflexivity.
    + destruct (read_one m (Raw n v) c _ Hi H ltac:(discriminate)) as (c1 & R & K & B & E & S1 & S2 & S3).
      assert (c_pos c1 = c_pos c /\ c_bit_count c1 < 8) as [P1 C1].
      { destruct (Z.le_gt_cases n (c_bit_count c)) as [L|L].
        - specialize (S2 L). destruct Hi. lia.
        - exfalso. destruct H as (_ & Pp & Ee & Bb & more & (L1 & _) & X). assert (c_pos c = c_end c + 1) as Ep by lia.
          unfold unread in X. rewrite Ep, bytes_at_nil in X. apply (f_equal zlen) in X. rewrite !zlen_app in X.
          pose proof (zlen_item_bits _ Hi) as Li. cbn [item_bits] in Li, X. change (zlen (bit_stream [])) with 0 in X.
          pose proof (zlen_nonneg more). pose proof (zlen_nonneg rest). pose proof (zlen_nonneg (flat_map item_bits l)). lia. }
      specialize (IH c1 HF' K ltac:(rewrite B; lia) C1). cbn [read_items map]. rewrite R. cbn [bind].
      destruct (forallb is_raw l).
      * destruct IH as (c' & D). rewrite D. cbn [bind]. exists c'. reflexivity.
      * rewrite IH. reflexivity.
Qed.

Lemma up8 used loaded n count : 8 * loaded - count = used + n -> 0 <= count < 8 -> 8 * loaded = 8 * ((used + n + 7) / 8).
Proof. intros H C. assert ((used + n + 7) / 8 = loaded) as ->; [|lia]. symmetry. apply Z.div_unique with (7 - count); lia. Qed.
Lemma up8_le used loaded n : used + n <= 8 * loaded -> 8 * ((used + n + 7) / 8) <= 8 * loaded.
Proof. intros H. assert ((used + n + 7) / 8 < loaded + 1); [|lia]. apply Z.div_lt_upper_bound; lia. Qed.

(** No read has taken or seen the last byte. *)
Lemma phase_before m rest : forall l c used, Forall item_ok l -> carries c (flat_map item_bits l ++ rest) ->
  c_end c = zlen (c_buf c) - 1 -> c_bit_count c = 8 * c_pos c - used -> c_pos c < zlen (c_buf c) ->
  zlen (flat_map item_bits l ++ rest) = 8 * zlen (c_buf c) - used ->
  if reads_through (zlen (c_buf c)) (8 * c_pos c) used l
  then exists c', read_items m l c = Ok (map item_value l, c') else read_items m l c = Panic.
Proof.
  induction l as [|i l IH]; intros c used HF H En C P T.
  - exists c. reflexivity.
  - inversion HF as [|? ? Hi HF']; subst. cbn [flat_map] in H, T. rewrite <- app_assoc in H, T. rewrite zlen_app in T.
    destruct (read_one m i c _ Hi H (fun _ => P)) as (c1 & R & K & B & E & S). pose proof (carries_count _ _ H) as C0. pose proof (carries_count _ _ K) as C1.
    cbn [read_items map]. rewrite R. cbn [bind]. pose proof (zlen_item_bits i Hi) as Li.
    destruct i as [xs s|n v]; cbn [reads_through].
    + destruct S as (P1 & S). specialize (S ltac:(lia)) as (S1 & S2). cbv zeta. fold (ahead (8 * c_pos c - used)). rewrite <- C. cbn [item_bits] in T.
      assert (ahead (c_bit_count c) = 8 * (ahead (c_bit_count c) / 8)) as A8
        by (unfold ahead; destruct (c_bit_count c <? 16), (c_bit_count c <? 24); reflexivity).
      destruct (Z.leb_spec (8 * zlen (c_buf c)) (8 * c_pos c + ahead (c_bit_count c))) as [L|L].
      * destruct (phase_buffered m rest l c1 HF' K P1) as (c' & D); [rewrite E; lia|lia|]. rewrite D. exists c'. reflexivity.
      * assert (c_pos c1 = c_pos c + ahead (c_bit_count c) / 8) as P2 by lia.
        specialize (IH c1 (used + zlen (code xs s)) HF' K). rewrite B, E in IH. specialize (IH En ltac:(lia) ltac:(lia) ltac:(lia)).
        replace (8 * c_pos c + ahead (c_bit_count c)) with (8 * c_pos c1) by lia.
        destruct (reads_through _ _ _ l); [destruct IH as (c' & D); rewrite D; exists c'; reflexivity|rewrite IH; reflexivity].
    + destruct S as (S1 & S2 & S3). cbv zeta. rewrite Li in T.
      assert (Z.max (8 * c_pos c) (8 * ((used + n + 7) / 8)) = 8 * c_pos c1) as M.
      { destruct (Z.le_gt_cases n (c_bit_count c)) as [L|L].
        - specialize (S2 L). pose proof (up8_le used (c_pos c) n ltac:(lia)). lia.
        - specialize (S3 L). pose proof (up8 used (c_pos c1) n (c_bit_count c1) ltac:(lia) ltac:(lia)). lia. }
      rewrite M. destruct (Z.leb_spec (8 * zlen (c_buf c)) (8 * c_pos c1)) as [L|L].
      * destruct K as (K1 & K2 & K3). assert (c_pos c1 = zlen (c_buf c1)) as Pz by (rewrite B; lia).
        assert (c_bit_count c1 < 8) as C8 by (destruct (Z.le_gt_cases n (c_bit_count c)) as [L2|L2]; [specialize (S2 L2); lia|exact (S3 L2)]).
        pose proof (phase_gone m rest l c1 HF' (conj K1 (conj K2 K3)) Pz C8) as G.
        destruct (forallb is_raw l); [destruct G as (c' & D); rewrite D; exists c'; reflexivity|rewrite G; reflexivity].
      * specialize (IH c1 (used + n) HF' K). rewrite B, E in IH. specialize (IH En ltac:(lia) ltac:(lia) ltac:(lia)).
        destruct (reads_through _ _ _ l); [destruct IH as (c' & D); rewrite D; exists c'; reflexivity|rewrite IH; reflexivity].
Qed.

Lemma reads_exact m items buf rest : Forall item_ok items -> bytes buf -> 1 <= zlen buf ->
  bit_stream buf = flat_map item_bits items ++ rest ->
  exists c, start_decoding buf (zlen buf) = Ok c /\
    if reads_through (zlen buf) 0 0 items then exists c', read_items m items c = Ok (map item_value items, c')
    else read_items m items c = Panic.
Proof.
  intros HF Hb Hs E.
  destruct (start_alive buf (zlen buf) (flat_map item_bits items ++ rest) [] Hb ltac:(lia)) as (c & S & [A _] & B & En & P0).
  { rewrite app_nil_r, <- E. unfold zlen. rewrite Nat2Z.id, firstn_all. reflexivity. }
  exists c. split; [exact S|]. assert (c_bit_count c = 0) as C0.
  { unfold start_decoding in S. destruct (zlen buf =? 0); [discriminate|]. apply bind_ok_inv in S as (x & _ & S). inversion S. reflexivity. }
  pose proof (phase_before m rest items c 0 HF A) as K. rewrite B, En, P0, C0 in K. apply K; try lia.
  rewrite <- E. rewrite zlen_bit_stream. lia.
Qed.
