(** * Proofs about the Huffman tables of arbitrary code lengths. *)
From Verif Require Import Base BaseLemmas ModelColor ModelCrn ModelCrunch ModelUnity SpecCrn SpecCrnHeader SpecHuff
  ProofCrnBits ProofHuff ProofLoops ProofCrnHeader ProofCrnRead.

Lemma table_bits_eq n : 1 <= n <= 8192 -> compute_decoder_table_bits n = table_bits n.
Proof.
  intros Hn. unfold compute_decoder_table_bits, table_bits, MAX_TABLE_BITS, ceil_log2i. destruct (Z.ltb_spec 16 n); [|reflexivity].
  rewrite Z.min_comm. f_equal. f_equal. cbv zeta.
  assert (Z.log2 n <= 13) as L by (change 13 with (Z.log2 8192); apply Z.log2_le_mono; lia).
  destruct (Z.eqb_spec (Z.log2 n) 32); [lia|]. cbn [negb andb]. rewrite Z.shiftl_1_l.
  pose proof (Z.log2_spec n ltac:(lia)) as S. pose proof (Z.le_log2_log2_up n) as A. pose proof (Z.le_log2_up_succ_log2 n) as B.
  pose proof (Z.log2_up_spec n ltac:(lia)) as U. pose proof (Z.log2_nonneg n).
  destruct (Z.ltb_spec (2 ^ Z.log2 n) n) as [Lt|Ge].
  - destruct (Z.eq_dec (Z.log2_up n) (Z.log2 n)) as [E|]; [rewrite E in U; lia|lia].
  - assert (n = 2 ^ Z.log2 n) as E by lia. rewrite E at 2. rewrite Z.log2_up_pow2 by lia. reflexivity.
Qed.
Lemma short_weight n xs : 0 <= n -> Forall (fun l => 0 <= l <= 16) xs -> weight (n + 1) xs = short_share n xs.
Proof.
  intros Hn HF. unfold weight, short_share. apply sum_map_ext. intros x Hx. rewrite Forall_forall in HF. specialize (HF x Hx).
  unfold share. destruct (Z.ltb_spec 0 x), (Z.ltb_spec x (n + 1)), (Z.leb_spec x n), (Z.eqb_spec x 0); cbn [andb]; lia || reflexivity.
Qed.
Lemma lookup_used_ex xs n : Forall (fun l => 0 <= l <= 16) xs -> lookup_used xs n <-> Exists (fun l => 0 < l < n) xs.
Proof.
  intros HF. rewrite Exists_exists. unfold lookup_used. split.
  - intros (s & [Hs Hc] & Hl). exists (znth xs s). split; [unfold znth; apply nth_In; unfold zlen in Hs; lia|].
    rewrite Forall_forall in HF. specialize (HF (znth xs s)). 
    assert (In (znth xs s) xs) as Hi by (unfold znth; apply nth_In; unfold zlen in Hs; lia). specialize (HF Hi). lia.
  - intros (l & Hi & Hl). apply (In_nth _ _ 0) in Hi as (k & Hk & E). exists (Z.of_nat k).
    assert (znth xs (Z.of_nat k) = l) as E' by (unfold znth; rewrite Nat2Z.id; exact E).
    split; [split; [unfold zlen; lia|lia]|lia].
Qed.
Lemma starts_spec xs T s : Forall (fun l => 0 <= l <= 16) xs -> starts xs T s <-> starts_with xs T s.
Proof.
  intros HF. unfold starts, starts_with, share. split; intros [Hc H]; (split; [exact Hc|]); destruct Hc as [_ Hc];
    destruct (Z.eqb_spec (znth xs s) 0); [congruence|exact H|congruence|exact H].
Qed.
Lemma prepare_spec m xs : any_lengths xs ->
  (exists md, prepare_decoder_tables m xs = Ok md /\ m_code_sizes md = xs /\ m_total_syms md = zlen xs /\ right_tables xs (m_tables md) /\ ~ overfull xs) \/
  (prepare_decoder_tables m xs = Err "" /\ overfull xs).
Proof.
  intros [Hl HF]. assert (0 <= table_bits (zlen xs)) as Ht.
  { unfold table_bits. destruct (16 <? zlen xs); [|lia]. pose proof (Z.log2_up_nonneg (zlen xs)). lia. }
  pose proof (prepare_all m xs Hl HF) as P. cbv zeta in P. rewrite table_bits_eq, short_weight in P by (auto; lia).
  unfold overfull. pose proof (lookup_used_ex xs (table_bits (zlen xs)) HF) as LU. destruct P as [(md & E & A & B & C & D)|(E & A & B)].
  - left. exists md. split; [exact E|split; [exact A|split; [exact B|split; [exact C|]]]]. intros [U W]. apply LU in U. specialize (D U). lia.
  - right. split; [exact E|]. split; [apply LU; exact A|exact B].
Qed.

Lemma peek_total c p : 0 <= p < zlen (c_buf c) -> c_end c < zlen (c_buf c) ->
  exists b q, peek_byte c p = Ok (b, q) /\ 0 <= q < zlen (c_buf c).
Proof.
  intros Hp He. unfold peek_byte. rewrite idx_ok by lia. cbn [bind].
  destruct (Z.leb_spec p (c_end c)); [|eexists _, _; split; [reflexivity|lia]].
  eexists _, _. split; [reflexivity|]. destruct (Z.ltb_spec p (c_end c)); lia.
Qed.
Lemma refill_total m c : fits c -> 0 <= c_pos c < zlen (c_buf c) -> c_end c < zlen (c_buf c) -> exists c', refill m c = Ok c'.
Proof.
  intros [F _] Hp He. unfold refill. destruct (Z.ltb_spec (c_bit_count c) 24); [|eauto]. destruct (Z.ltb_spec (c_bit_count c) 16).
  - destruct (peek_total c (c_pos c) Hp He) as (b & q & -> & Hq). cbn [bind]. destruct (peek_total c q Hq He) as (b' & q' & -> & _). cbn [bind].
    rewrite ushl_ok by lia. cbn [bind]. eauto.
  - destruct (peek_total c (c_pos c) Hp He) as (b & q & -> & Hq). cbn [bind]. rewrite ushl_ok by lia. cbn [bind]. eauto.
Qed.
Lemma refill_no_err m c : refill m c = Panic \/ exists c', refill m c = Ok c'.
Proof.
  unfold refill, peek_byte. destruct (_ <? 24) eqn:B24; [|eauto]. apply Z.ltb_lt in B24.
  assert (forall (x : Z) n, ushl m 32 x n = Panic \/ exists y, ushl m 32 x n = Ok y) as U.
  { intros x n. unfold ushl, sh_amt. destruct (_ && _); cbn [bind]; [eauto|]. destruct m; cbn [bind]; eauto. }
  assert (forall p, idx (c_buf c) p = Panic \/ exists b, idx (c_buf c) p = Ok b) as X.
  { intros p. unfold idx. destruct (0 <=? p); [|auto]. destruct (nth_error _ _); eauto. }
  destruct (_ <? 16).
  - destruct (X (c_pos c)) as [->|(b & ->)]; cbn [bind]; [auto|].
    match goal with |- context [if c_pos c <=? c_end c then Ok (b, ?e) else _] => generalize e; intros q end.
    assert (exists b1 p1, (if c_pos c <=? c_end c then Ok (b, q) else Ok (0, c_pos c)) = Ok (b1, p1)) as (b1 & p1 & ->)
      by (destruct (c_pos c <=? c_end c); eauto). cbn [bind].
    destruct (X p1) as [->|(b2 & ->)]; cbn [bind]; [auto|].
    match goal with |- context [if p1 <=? c_end c then Ok (b2, ?e) else _] => generalize e; intros q' end.
    assert (exists b3 p3, (if p1 <=? c_end c then Ok (b2, q') else Ok (0, p1)) = Ok (b3, p3)) as (b3 & p3 & ->)
      by (destruct (p1 <=? c_end c); eauto). cbn [bind].
    match goal with |- context [ushl m 32 ?x ?n] => destruct (U x n) as [->|(y & ->)] end; cbn [bind]; eauto.
  - destruct (X (c_pos c)) as [->|(b & ->)]; cbn [bind]; [auto|].
    match goal with |- context [if c_pos c <=? c_end c then Ok (b, ?e) else _] => generalize e; intros q end.
    assert (exists b1 p1, (if c_pos c <=? c_end c then Ok (b, q) else Ok (0, c_pos c)) = Ok (b1, p1)) as (b1 & p1 & ->)
      by (destruct (c_pos c <=? c_end c); eauto). cbn [bind].
    match goal with |- context [ushl m 32 ?x ?n] => destruct (U x n) as [->|(y & ->)] end; cbn [bind]; eauto.
Qed.

Section Received.
Context (m : build) (xs : list Z) (md : model).
Hypothesis HA : any_lengths xs.
Hypothesis HP : prepare_decoder_tables m xs = Ok md.

Lemma lookup_coded w s : 0 <= w < 2 ^ 32 -> starts_with xs (w / 2 ^ 16) s -> lookup_symbol m md w = Ok (s, znth xs s).
Proof.
  intros Hw Hs. destruct (prepare_spec m xs HA) as [(md' & E & A & B & C & _)|(E & _)]; [|congruence].
  assert (md' = md) as -> by congruence. destruct HA as [Hl HF]. apply starts_spec in Hs; [|exact HF].
  apply (lookup_symbol_ok m xs Hl HF); auto.
Qed.
Lemma lookup_none w : 0 <= w < 2 ^ 32 -> (exists s, coded xs s) -> sum (map share xs) <= w / 2 ^ 16 -> lookup_symbol m md w = Err "".
Proof.
  intros Hw Hs L. destruct (prepare_spec m xs HA) as [(md' & E & A & B & C & _)|(E & _)]; [|congruence].
  assert (md' = md) as -> by congruence. destruct HA as [Hl HF]. rewrite <- weight_all in L by exact HF.
  apply (lookup_symbol_none m xs Hl); auto.
Qed.
Lemma lookup_empty w : 0 <= w -> (forall s, ~ coded xs s) -> lookup_symbol m md w = Panic.
Proof.
  intros Hw No. destruct (prepare_spec m xs HA) as [(md' & E & A & B & C & _)|(E & _)]; [|congruence].
  assert (md' = md) as -> by congruence. apply (lookup_symbol_empty m xs); auto.
Qed.
Lemma lookup_cases w : 0 <= w < 2 ^ 32 ->
  (exists s, starts_with xs (w / 2 ^ 16) s) \/ sum (map share xs) <= w / 2 ^ 16.
Proof.
  intros Hw. destruct (Z.le_gt_cases (sum (map share xs)) (w / 2 ^ 16)) as [|L]; [auto|left]. destruct HA as [Hl HF].
  rewrite <- weight_all in L by exact HF. destruct (starts_ex xs HF (w / 2 ^ 16)) as (s & S).
  { split; [apply Z.div_pos; lia|lia]. }
  exists s. apply starts_spec; auto.
Qed.
End Received.

(** ** Decoding from any state *)
Lemma decode_any m xs md c : any_lengths xs -> prepare_decoder_tables m xs = Ok md -> (exists s, coded xs s) ->
  fits c -> 0 <= c_pos c < zlen (c_buf c) -> c_end c < zlen (c_buf c) ->
  decode m md c = Err "" \/ exists s c', decode m md c = Ok (s, c') /\ coded xs s.
Proof.
  intros HA HP Hex HF Hp He. unfold decode. destruct (refill_total m c HF Hp He) as (c1 & E). rewrite E. cbn [bind].
  apply refill_fits in E as [[_ F1] _]; [|exact HF].
  destruct (lookup_cases xs HA (c_bit_buf c1) F1) as [(s & S)|L].
  - rewrite (lookup_coded m xs md HA HP _ s F1 S). cbn [bind]. pose proof S as [Hc _]. pose proof HA as [_ HF'].
    pose proof (size_range xs HF' s (proj1 Hc)). rewrite ushl_ok by lia. cbn [bind]. right. eauto.
  - left. rewrite (lookup_none m xs md HA HP _ F1 Hex L). reflexivity.
Qed.
Lemma decode_empty m xs md c : any_lengths xs -> prepare_decoder_tables m xs = Ok md -> (forall s, ~ coded xs s) ->
  fits c -> decode m md c = Panic.
Proof.
  intros HA HP No HF. unfold decode. destruct (refill_no_err m c) as [->|(c1 & E)]; [reflexivity|]. rewrite E. cbn [bind].
  apply refill_fits in E as [[_ F1] _]; [|exact HF]. rewrite (lookup_empty m xs md HA HP) by (auto; lia). reflexivity.
Qed.

(** ** A code for code lengths without a code word *)
Lemma any_zeros n : 1 <= n <= 8192 -> any_lengths (repeat 0 (Z.to_nat n)) /\ forall s, ~ coded (repeat 0 (Z.to_nat n)) s.
Proof.
  intros Hn. split; [split; [unfold zlen; rewrite repeat_length; lia|apply Forall_forall; intros x Hx; apply repeat_spec in Hx; lia]|].
  intros s [Hs Hc]. apply Hc. unfold znth. apply (repeat_spec (Z.to_nat n) 0), nth_In. unfold zlen in Hs. lia.
Qed.
Lemma zero_sizes m : forall l c bs, Forall (fun k => 0 <= k < 21) l -> fits c ->
  carries c (repeat false (3 * length l) ++ bs) ->
  exists c', for_list l (fun code st => let '(sizes, c) := st in let* (s, c) := decode_bits m 3 c in
      let* sizes := upd sizes code (u8 s) in Ok (sizes, c)) (repeat 0 21, c) = Ok (repeat 0 21, c') /\ fits c'.
Proof.
  induction l as [|k l IH]; intros c bs HF Fc Hc; [exists c; split; [reflexivity|exact Fc]|].
  inversion HF as [|? ? Hk HF']; subst. cbn [for_list].
  replace (3 * length (k :: l))%nat with (3 + 3 * length l)%nat in Hc by (cbn [length]; lia).
  rewrite repeat_app, <- app_assoc in Hc. change (repeat false 3) with (bits_of 3 0) in Hc.
  destruct (decode_bits_ok m 3 c _ 0 ltac:(lia) ltac:(lia) Hc) as (c1 & E & H1 & _).
  apply decode_bits_fits in E as K; [|lia|exact Fc]. rewrite E. cbn [bind].
  rewrite upd_ok by (change (zlen (repeat 0 21)) with 21; lia). cbn [bind].
  assert (replace_nth (Z.to_nat k) (u8 0) (repeat 0 21) = repeat 0 21) as ->.
  { change (u8 0) with 0. assert (Z.to_nat k < 21)%nat as Kn by lia. clear - Kn.
    generalize dependent (Z.to_nat k). intros n Kn. do 21 (destruct n as [|n]; [reflexivity|]). lia. }
  apply (IH c1 bs); auto. apply K.
Qed.
Lemma receive_no_code m c T n bs : 1 <= T < 2 ^ 14 -> 1 <= n <= 21 -> fits c ->
  carries c (bits_of 14 T ++ bits_of 5 n ++ repeat false (Z.to_nat (3 * n)) ++ bs) -> receive_model m c = Panic.
Proof.
  intros HT Hn Fc Hc. unfold receive_model. change (total_bits MAX_SUPPORTED_SYMS) with 14.
  destruct (decode_bits_ok m 14 c _ T ltac:(lia) ltac:(lia) Hc) as (c1 & E1 & H1 & _).
  apply decode_bits_fits in E1 as K1; [|lia|exact Fc]. rewrite E1. cbn [bind].
  destruct (decode_bits_ok m 5 c1 _ n ltac:(lia) ltac:(lia) H1) as (c2 & E2 & H2 & _).
  apply decode_bits_fits in E2 as K2; [|lia|apply K1]. rewrite E2. cbn [bind].
  destruct (Z.ltb_spec n 1); [lia|]. unfold MAX_CODELENGTH_CODES at 1. destruct (Z.ltb_spec 21 n); [lia|]. cbn [orb].
  assert (length (firstn (Z.to_nat n) MOST_PROBABLE_CODELENGTH_CODES) = Z.to_nat n) as Lf.
  { rewrite firstn_length. change (length MOST_PROBABLE_CODELENGTH_CODES) with 21%nat. lia. }
  assert (exists c3, codelength_sizes m n c2 = Ok (repeat 0 21, c3) /\ fits c3) as (c3 & E3 & F3).
  { unfold codelength_sizes. change (Z.to_nat MAX_CODELENGTH_CODES) with 21%nat.
    apply (zero_sizes m _ c2 bs); [|apply K2|rewrite Lf; replace (3 * Z.to_nat n)%nat with (Z.to_nat (3 * n)) by lia; exact H2].
    assert (Forall (fun k => 0 <= k < 21) MOST_PROBABLE_CODELENGTH_CODES) as A by (repeat constructor; lia).
    rewrite <- (firstn_skipn (Z.to_nat n) MOST_PROBABLE_CODELENGTH_CODES) in A. apply Forall_app in A. apply A. }
  rewrite E3. cbn [bind]. destruct (any_zeros 21 ltac:(lia)) as [HA No]. change (Z.to_nat 21) with 21%nat in HA, No.
  destruct (prepare_spec m _ HA) as [(md & EP & _)|(_ & [O _])].
  2: { apply Exists_exists in O as (x & Hx & Lx). apply repeat_spec in Hx. lia. }
  rewrite EP. cbn [bind]. destruct (Z.to_nat T) as [|k] eqn:Ek; [lia|]. cbn [receive_loop].
  destruct (Z.ltb_spec 0 T); [|lia]. unfold receive_step at 1. rewrite (decode_empty m _ md c3 HA EP No F3). reflexivity.
Qed.

(** ** The section of the codes *)
Section File.
Context (m : build) (data : list Z).
Hypothesis Hb : bytes data.
Hypothesis Hl : zlen data < 2 ^ 32.
Hypothesis Hr : Z.max 74 (header_room data) <= zlen data.
Hypothesis Hw : well_formed data = true.
Hypothesis Hf : znth data 18 <= 15.

Lemma accepted_begin : crnd_get_texture_info data (zlen data) = Ok (info_at data) /\ crnd_get_header data (zlen data) = Ok (header_at data).
Proof.
  rewrite header_code, info_code by exact Hb. destruct (Z.ltb_spec (zlen data) 74); [lia|].
  destruct (Z.ltb_spec (zlen data) (header_room data)); [lia|]. rewrite Hw.
  destruct (Z.leb_spec (znth data 18) 15); [auto|lia].
Qed.
Lemma tables_panic w h image : init_tables m data (header_at data) = Panic ->
  decode_crunch m data w h image = Panic /\ decode_unity_crunch m data w h image = Panic.
Proof.
  intros E. destruct accepted_begin as [A B]. unfold decode_crunch, decode_unity_crunch, crunch_unpack_level, unity_crunch_unpack_level.
  unfold u32. rewrite Z.mod_small by (pose proof (zlen_nonneg data); lia). rewrite A. cbn [or_err bind].
  unfold crnd_unpack_begin, unity_unpack_begin, CRNHEADER_MIN_SIZE. destruct (Z.ltb_spec (zlen data) 62); [lia|].
  unfold unpacker_init, unity_init. rewrite B. cbn [bind]. rewrite E. split; reflexivity.
Qed.
Lemma tables_err w h image msg : init_tables m data (header_at data) = Err msg ->
  decode_crunch m data w h image = Ok (Failed "Failed to initialize Crunch decompressor.", image) /\
  decode_unity_crunch m data w h image = Ok (Failed "Failed to initialize Crunch decompressor.", image).
Proof.
  intros E. destruct accepted_begin as [A B]. unfold decode_crunch, decode_unity_crunch, crunch_unpack_level, unity_crunch_unpack_level.
  unfold u32. rewrite Z.mod_small by (pose proof (zlen_nonneg data); lia). rewrite A. cbn [or_err bind].
  unfold crnd_unpack_begin, unity_unpack_begin, CRNHEADER_MIN_SIZE. destruct (Z.ltb_spec (zlen data) 62); [lia|].
  unfold unpacker_init, unity_init. rewrite B. cbn [bind]. rewrite E. split; reflexivity.
Qed.
Lemma number_nonneg d ofs n : bytes d -> 0 <= number d ofs n.
Proof.
  intros B. unfold number. generalize (zrange 0 n). induction l as [|k l IH]; cbn [fold_right]; [lia|].
  assert (0 <= znth d (ofs + k)) by apply (bytes_znth d (ofs + k) B). assert (0 <= 256 ^ (n - 1 - k)) by (apply Z.pow_nonneg; lia). nia.
Qed.
Lemma tables_section : let ofs := number data 67 3 in let size := number data 65 2 in
  init_tables m data (header_at data) =
    (if zlen data <? ofs then Panic else if size =? 0 then Err ""
     else if zlen data - ofs <? size then Panic else init_tables m data (header_at data)).
Proof.
  cbv zeta. pose proof (number_nonneg data 67 3 Hb) as N. pose proof (number_nonneg data 65 2 Hb) as N2.
  unfold init_tables. cbn [header_at h_tables_ofs h_tables_size].
  destruct (Z.ltb_spec (zlen data) (number data 67 3)) as [L|L].
  - unfold slice_from. destruct (Z.leb_spec (number data 67 3) (zlen data)); [lia|]. rewrite Bool.andb_false_r. reflexivity.
  - rewrite slice_from_ok by lia. cbn [bind]. unfold start_decoding.
    destruct (Z.eqb_spec (number data 65 2) 0); [reflexivity|]. 
    destruct (Z.ltb_spec (zlen data - number data 67 3) (number data 65 2)) as [K|K]; [|reflexivity].
    unfold idx. destruct (Z.leb_spec 0 (number data 65 2 - 1)); [|reflexivity].
    assert (nth_error (skipn (Z.to_nat (number data 67 3)) data) (Z.to_nat (number data 65 2 - 1)) = None) as ->; [|reflexivity].
    apply nth_error_None. rewrite skipn_length. unfold zlen in *. lia.
Qed.
Lemma no_code_panic T n bs : let ofs := number data 67 3 in let size := number data 65 2 in
  1 <= size <= zlen data - ofs -> 1 <= T < 2 ^ 14 -> 1 <= n <= 21 ->
  bit_stream (firstn (Z.to_nat size) (skipn (Z.to_nat ofs) data)) =
    bits_of 14 T ++ bits_of 5 n ++ repeat false (Z.to_nat (3 * n)) ++ bs ->
  init_tables m data (header_at data) = Panic.
Proof.
  cbv zeta. intros Hs HT Hn E. pose proof (number_nonneg data 67 3 Hb) as N.
  unfold init_tables. cbn [header_at h_tables_ofs h_tables_size]. rewrite slice_from_ok by lia. cbn [bind].
  assert (1 <= number data 65 2 <= zlen (skipn (Z.to_nat (number data 67 3)) data)) as Hs'.
  { unfold zlen in *. rewrite skipn_length. lia. }
  destruct (start_alive _ (number data 65 2) _ [] (bytes_skipn data _ Hb) Hs' ltac:(rewrite app_nil_r; exact E)) as (c & Ec & [Ac _] & _).
  pose proof Ec as Ec'. unfold start_decoding in Ec'. destruct (number data 65 2 =? 0); [discriminate|]. step Ec'.
  assert (fits c) as Fc by (inversion Ec'; split; cbn [c_bit_count c_bit_buf]; lia).
  rewrite Ec. cbn [bind]. rewrite (receive_no_code m c T n bs HT Hn Fc Ac). reflexivity.
Qed.
End File.
