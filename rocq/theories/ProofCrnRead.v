(** * Proofs about reading symbols and raw bits. *)
From Verif Require Import Base BaseLemmas ModelCrn SpecCrn ProofCrnBits ProofHuff.

Lemma code_facts xs s : code_lengths xs -> coded xs s ->
  1 <= znth xs s <= 16 /\ zlen (code xs s) = znth xs s /\ 0 <= first_word xs s /\
  first_word xs s + 2 ^ (16 - znth xs s) <= 2 ^ 16 /\
  value (code xs s) * 2 ^ (16 - znth xs s) = first_word xs s.
Proof.
  intros (Hn & HF & HK) Hc. assert (weight 17 xs <= 2 ^ 16) as HW by (rewrite weight_all; auto). pose proof (size_range xs HF s (proj1 Hc)) as Rs.
  assert (1 <= znth xs s) as R1 by (destruct Hc as [? C2]; lia).
  pose proof (first_low xs HF s Hc) as Fl. pose proof (first_word_eq xs s HF Hc) as Fe.
  assert (0 < 2 ^ (16 - znth xs s)) as Hp by (apply Z.pow_pos_nonneg; lia).
  assert (starts xs (first_word xs s) s) as St by (split; [exact Hc|lia]).
  pose proof (weight_range xs Hn (znth xs s) ltac:(lia)) as [W1 _].
  pose proof (weight_mono (znth xs s + 1) 17 xs ltac:(lia)) as W2.
  pose proof (rank_lt xs s (proj1 Hc)) as Rr. pose proof (weight_step (znth xs s) xs ltac:(lia)) as Ws.
  assert (0 <= first_word xs s /\ first_word xs s + 2 ^ (16 - znth xs s) <= 2 ^ 16) as [F1 F2] by nia.
  split; [lia|]. split; [apply zlen_bits_of; lia|]. split; [exact F1|]. split; [exact F2|].
  unfold code. rewrite value_bits_of by lia. rewrite Fl, Z.div_mul by lia. rewrite Z.mod_small; [reflexivity|].
  assert (2 ^ 16 = 2 ^ znth xs s * 2 ^ (16 - znth xs s)) as E by (rewrite <- Z.pow_add_r by lia; f_equal; lia).
  rewrite Fl in F1, F2. rewrite E in F2. clear - F1 F2 Hp. nia.
Qed.

Lemma decode_ok m xs md c s bs : code_lengths xs -> coded xs s -> prepare_decoder_tables m xs = Ok md ->
  carries c (code xs s ++ bs) -> c_pos c < zlen (c_buf c) ->
  exists c', decode m md c = Ok (s, c') /\ carries c' bs /\ c_buf c' = c_buf c /\ c_end c' = c_end c /\ c_pos c' < zlen (c_buf c).
Proof.
  intros HL Hc HP H Hl. destruct (code_facts xs s HL Hc) as (Rs & Lc & F1 & F2 & Fv).
  destruct HL as (Hn & HF & HK). rewrite <- weight_all in HK by exact HF. destruct (prepare_ok m xs Hn HF HK (proj1 Hn)) as (md' & E & Es & LS).
  rewrite HP in E. injection E as <-. unfold decode.
  destruct (refill_ok m c _ H Hl) as (c1 & -> & H1 & C16 & B1 & E1 & P1). cbn [bind].
  destruct (drop_ok m c1 (code xs s) bs H1 ltac:(lia) ltac:(lia)) as (rest & U1 & U2 & Rb & Rc & K).
  assert (starts xs (c_bit_buf c1 / 2 ^ 16) s) as St.
  { split; [exact Hc|]. specialize (U2 ltac:(lia)). rewrite Lc in U2. rewrite ushr_ok in U2 by lia.
    assert (c_bit_buf c1 / 2 ^ (32 - znth xs s) = value (code xs s)) as U3 by congruence. rewrite <- Fv, <- U3.
    assert (2 ^ (32 - znth xs s) = 2 ^ 16 * 2 ^ (16 - znth xs s)) as -> by (rewrite <- Z.pow_add_r by lia; f_equal; lia).
    assert (0 < 2 ^ (16 - znth xs s)) as Hp by (apply Z.pow_pos_nonneg; lia).
    rewrite <- Z.div_div by lia. set (T := c_bit_buf c1 / 2 ^ 16).
    pose proof (Z.div_mod T (2 ^ (16 - znth xs s)) ltac:(lia)). pose proof (Z.mod_pos_bound T (2 ^ (16 - znth xs s)) Hp). lia. }
  rewrite (LS _ _ Rb St). cbn [bind]. rewrite <- Lc, U1. cbn [bind].
  eexists. split; [reflexivity|]. split; [exact K|]. cbn [c_buf c_end c_pos]. repeat split; auto; lia.
Qed.

(** ** Position after raw reads *)
Lemma get_bits_loop_pos m n : forall fuel c c', get_bits_loop m fuel n c = Ok c' -> c' = c \/ c_bit_count c' < n + 8.
Proof.
  induction fuel as [|fuel IH]; intros c c'; cbn [get_bits_loop].
  - destruct (Z.ltb_spec (c_bit_count c) n); [discriminate|]. intros E. injection E as <-. auto.
  - destruct (Z.ltb_spec (c_bit_count c) n) as [Hc|Hc]; [|intros E; injection E as <-; auto].
    destruct (idx (c_buf c) (c_pos c)) as [b| |] eqn:Ei; cbn [bind]; try discriminate.
    destruct (BIT_BUF_SIZE <? c_bit_count c + 8); [discriminate|].
    destruct (ushl m 32 b _) as [x| |]; cbn [bind]; try discriminate. intros E. apply IH in E.
    right. destruct E as [->|E]; [cbn [c_bit_count]; lia|exact E].
Qed.
Lemma get_bits_pos m n c v c' : get_bits m n c = Ok (v, c') -> c_pos c' = c_pos c \/ c_bit_count c' < 8.
Proof.
  unfold get_bits. destruct (32 <? n); [discriminate|].
  destruct (get_bits_loop m 5 n c) as [c1| |] eqn:G; cbn [bind]; try discriminate.
  destruct (ushr m 32 _ _) as [r| |]; cbn [bind]; try discriminate.
  destruct (ushl m 32 _ _) as [q| |]; cbn [bind]; try discriminate.
  intros E. injection E as _ <-. cbn [c_pos c_bit_count]. destruct (get_bits_loop_pos m n 5 c c1 G) as [->|L]; [left; reflexivity|right; lia].
Qed.

(** Either the position is inside the slice, or fewer than 8 bits remain. *)
Definition alive (c : codec) (bs : list bool) : Prop := carries c bs /\ (c_pos c < zlen (c_buf c) \/ zlen bs < 8).

Lemma alive_few c bs : carries c bs -> c_bit_count c < 8 -> c_pos c < zlen (c_buf c) \/ zlen bs < 8.
Proof.
  intros (_ & P & E & B & more & (L & L' & _) & X) Hc.
  destruct (Z.lt_ge_cases (c_pos c) (zlen (c_buf c))) as [|G]; [left; lia|right].
  assert (c_pos c = c_end c + 1) as Ep by lia. unfold unread in X. rewrite Ep, bytes_at_nil in X.
  change (bit_stream []) with (@nil bool) in X. rewrite app_nil_r in X. apply (f_equal zlen) in X.
  rewrite zlen_app in X. pose proof (zlen_nonneg more). lia.
Qed.

Lemma get_bits_alive m n c bs v : 1 <= n <= 25 -> 0 <= v < 2 ^ n -> alive c (bits_of n v ++ bs) ->
  exists c', get_bits m n c = Ok (v, c') /\ alive c' bs /\ c_buf c' = c_buf c /\ c_end c' = c_end c.
Proof.
  intros Hn Hv [H A]. destruct (get_bits_ok m n c bs v Hn Hv H) as (c' & G & K & B & E).
  exists c'. split; [exact G|]. split; [|auto]. split; [exact K|].
  destruct (get_bits_pos m n c v c' G) as [P|P]; [|apply alive_few; auto].
  destruct A as [A|A]; [left; rewrite P, B; exact A|right]. rewrite zlen_app in A. pose proof (zlen_nonneg (bits_of n v)). lia.
Qed.

Lemma raw_alive m n c bs v : 0 <= n <= 16 -> 0 <= v < 2 ^ n -> alive c (bits_of n v ++ bs) ->
  exists c', decode_bits m n c = Ok (v, c') /\ alive c' bs /\ c_buf c' = c_buf c /\ c_end c' = c_end c.
Proof.
  intros Hn Hv H. unfold decode_bits. destruct (Z.eqb_spec n 0) as [->|H0].
  - change (2 ^ 0) with 1 in Hv. assert (v = 0) as -> by lia. exists c. auto.
  - destruct (Z.ltb_spec 16 n); [lia|]. apply get_bits_alive; auto; lia.
Qed.
Lemma sym_alive m xs md c s bs : code_lengths xs -> coded xs s -> prepare_decoder_tables m xs = Ok md ->
  alive c (code xs s ++ bs) -> 7 <= zlen bs \/ c_end c + 1 < zlen (c_buf c) \/ c_pos c < zlen (c_buf c) ->
  exists c', decode m md c = Ok (s, c') /\ alive c' bs /\ c_buf c' = c_buf c /\ c_end c' = c_end c /\ c_pos c' < zlen (c_buf c').
Proof.
  intros HL Hc HP [H A] S. destruct (code_facts xs s HL Hc) as (Rs & Lc & _).
  assert (c_pos c < zlen (c_buf c)) as P.
  { destruct A as [A|A]; [exact A|]. rewrite zlen_app in A. destruct S as [S|[S|S]]; [lia| |exact S].
    destruct H as (_ & P & _). lia. }
  destruct (decode_ok m xs md c s bs HL Hc HP H P) as (c' & D & K & B & E & P').
  exists c'. rewrite <- B in P'. split; [exact D|]. split; [split; auto|]. auto.
Qed.

Lemma start_alive buf size bs more : bytes buf -> 1 <= size <= zlen buf -> bit_stream (firstn (Z.to_nat size) buf) = bs ++ more ->
  exists c, start_decoding buf size = Ok c /\ alive c bs /\ c_buf c = buf /\ c_end c = size - 1 /\ c_pos c = 0.
Proof.
  intros Hb Hs E. unfold start_decoding. destruct (Z.eqb_spec size 0); [lia|].
  rewrite idx_ok by lia. cbn [bind]. eexists. split; [reflexivity|]. cbn [c_buf c_end c_pos].
  split; [|auto]. split; [|left; cbn [c_pos c_buf]; lia].
  split; [exact Hb|split; [cbn [c_pos c_end]; lia|split; [cbn [c_buf c_end]; lia|]]].
  exists [], more. split; [split; [reflexivity|cbn [c_bit_count c_bit_buf]; split; [lia|reflexivity]]|].
  unfold unread, bytes_at. cbn [c_buf c_pos c_end app]. change (skipn (Z.to_nat 0) buf) with buf.
  replace (size - 1 + 1 - 0) with size by lia. exact E.
Qed.

(** ** Sequences of reads *)
Definition read_item (m : build) (i : item) (c : codec) : res (Z * codec) :=
  match i with
  | Sym sizes _ => let* md := prepare_decoder_tables m sizes in decode m md c
  | Raw n _ => decode_bits m n c
  end.
Fixpoint read_items (m : build) (l : list item) (c : codec) : res (list Z * codec) :=
  match l with
  | [] => Ok ([], c)
  | i :: l' => let* (v, c) := read_item m i c in let* (vs, c) := read_items m l' c in Ok (v :: vs, c)
  end.

Lemma prepare_some m xs : code_lengths xs -> exists md, prepare_decoder_tables m xs = Ok md.
Proof.
  intros (Hn & HF & HK). rewrite <- weight_all in HK by exact HF. destruct (prepare_ok m xs Hn HF HK (proj1 Hn)) as (md & E & _). eauto.
Qed.

Lemma read_items_ok m rest : forall l c, Forall item_ok l -> alive c (flat_map item_bits l ++ rest) ->
  7 <= zlen rest \/ c_end c + 1 < zlen (c_buf c) \/ c_pos c < zlen (c_buf c) /\ Forall (fun i => match i with Sym _ _ => True | Raw _ _ => False end) l ->
  exists c', read_items m l c = Ok (map item_value l, c') /\ alive c' rest.
Proof.
  induction l as [|i l IH]; intros c HF H S.
  - exists c. split; [reflexivity|exact H].
  - inversion HF as [|? ? Hi HF']; subst. cbn [flat_map] in H. rewrite <- app_assoc in H.
    assert (exists c1, read_item m i c = Ok (item_value i, c1) /\ alive c1 (flat_map item_bits l ++ rest) /\
       c_buf c1 = c_buf c /\ c_end c1 = c_end c /\ match i with Sym _ _ => c_pos c1 < zlen (c_buf c1) | Raw _ _ => True end) as (c1 & R1 & A1 & B1 & E1 & P1).
    { destruct i as [xs s|n v]; cbn [read_item item_bits item_value item_ok] in *.
      - destruct Hi as [HL Hc]. destruct (prepare_some m xs HL) as (md & Emd). rewrite Emd. cbn [bind].
        apply sym_alive with xs; auto. rewrite zlen_app. pose proof (zlen_nonneg (flat_map item_bits l)).
        destruct S as [S|[S|[S _]]]; [left; lia|auto|auto].
      - destruct Hi as [Hn Hv]. destruct (raw_alive m n c _ v Hn Hv H) as (c' & D & K & B & E). exists c'. auto. }
    cbn [read_items]. rewrite R1. cbn [bind].
    destruct (IH c1 HF' A1) as (c' & -> & A').
    { rewrite B1, E1. destruct S as [S|[S|[S1 S2]]]; [auto|auto|right; right].
      inversion S2 as [|? ? Si S2']; subst. destruct i; [|contradiction]. rewrite B1 in P1. auto. }
    cbn [bind map]. exists c'. auto.
Qed.

(** [k] symbols in a row. *)
Fixpoint decode_all (m : build) (md : model) (k : nat) (c : codec) : res (list Z * codec) :=
  match k with
  | O => Ok ([], c)
  | S k' => let* (s, c) := decode m md c in let* (l, c) := decode_all m md k' c in Ok (s :: l, c)
  end.
Lemma decode_all_ok m xs md rest : code_lengths xs -> prepare_decoder_tables m xs = Ok md ->
  forall syms c, Forall (coded xs) syms -> alive c (flat_map (code xs) syms ++ rest) -> c_pos c < zlen (c_buf c) ->
  exists c', decode_all m md (length syms) c = Ok (syms, c') /\ alive c' rest.
Proof.
  intros HL HP. induction syms as [|s syms IH]; intros c HF A P; [exists c; auto|].
  inversion HF as [|? ? Hs HF']; subst. cbn [flat_map] in A. rewrite <- app_assoc in A.
  destruct (sym_alive m xs md c s _ HL Hs HP A ltac:(auto)) as (c1 & D & A1 & B1 & E1 & P1).
  destruct (IH c1 HF' A1 P1) as (c' & I & A'). exists c'. cbn [length decode_all]. rewrite D. cbn [bind]. rewrite I. auto.
Qed.

(** Canonical codes are prefix free. *)
Lemma prefix_free xs s t a b : code_lengths xs -> coded xs s -> coded xs t -> code xs s ++ a = code xs t ++ b -> s = t.
Proof.
  assert (forall s t a b, code_lengths xs -> coded xs s -> coded xs t -> znth xs s <= znth xs t -> code xs s ++ a = code xs t ++ b -> s = t) as K.
  { clear s t a b. intros s t a b HL Hs Ht Hle E.
    destruct (code_facts xs s HL Hs) as (R1 & L1 & _ & _ & V1). destruct (code_facts xs t HL Ht) as (R2 & L2 & _ & _ & V2).
    destruct (split_bits (code xs t) (code xs s) b a ltac:(lia)) as (r & Er); [auto|].
    assert (zlen r = znth xs t - znth xs s) as Lr by (rewrite <- L1, <- L2, Er, zlen_app; lia).
    pose proof (value_range r) as Rr. rewrite Lr in Rr.
    destruct HL as (Hn & HF & HK).
    rewrite <- weight_all in HK by exact HF. apply (starts_inj xs Hn HF (first_word xs t)).
    - split; [exact Hs|]. rewrite <- V1, <- V2. rewrite Er, value_app, Lr, Z.mul_add_distr_r, <- Z.mul_assoc.
      assert (2 ^ (znth xs t - znth xs s) * 2 ^ (16 - znth xs t) = 2 ^ (16 - znth xs s)) as E2 by (rewrite <- Z.pow_add_r by lia; f_equal; lia).
      rewrite E2. assert (0 < 2 ^ (16 - znth xs t)) by (apply Z.pow_pos_nonneg; lia).
      assert (0 <= value r * 2 ^ (16 - znth xs t) < 2 ^ (16 - znth xs s)) by (rewrite <- E2; nia). lia.
    - split; [exact Ht|]. assert (0 < 2 ^ (16 - znth xs t)) by (apply Z.pow_pos_nonneg; lia). lia. }
  intros HL Hs Ht E. destruct (Z.le_ge_cases (znth xs s) (znth xs t)); [eapply K; eauto|symmetry; eapply K; eauto].
Qed.
