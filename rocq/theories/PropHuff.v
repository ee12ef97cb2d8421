(** * C70: Huffman tables of arbitrary code lengths; C38: the section of the
    codes *)
From Verif Require Import Base BaseLemmas ModelColor ModelCrn ModelCrunch ModelUnity SpecCrn SpecCrnHeader SpecHuff
  ProofCrnBits ProofHuff ProofLoops ProofHuffAll PropCrn.

(** ** C70 *)
(** Building the tables never panics: it succeeds unless the codes of the
    lookup table are oversubscribed, and then reports an error. *)
Theorem C70_tables m sizes : any_lengths sizes ->
  (~ overfull sizes -> exists md, prepare_decoder_tables m sizes = Ok md) /\
  (overfull sizes -> prepare_decoder_tables m sizes = Err "").
Proof.
  intros HA. destruct (prepare_spec m sizes HA) as [(md & E & _ & _ & _ & N)|(E & O)].
  - split; [eauto|intros O; destruct (N O)].
  - split; [intros N; destruct (N O)|auto].
Qed.
(** Codes satisfying Kraft's inequality are never refused. *)
Theorem C70_kraft sizes : code_lengths sizes -> any_lengths sizes /\ ~ overfull sizes.
Proof.
  intros (Hl & HF & HK). split; [split; assumption|]. intros [_ O].
  enough (short_share (table_bits (zlen sizes)) sizes <= sum (map share sizes)) by lia.
  apply sum_map_le. intros x _. assert (0 <= share x). { unfold share. destruct (x =? 0); [lia|apply Z.pow_nonneg; lia]. }
  destruct (x <=? _); lia.
Qed.
(** A 32-bit window starting with the code of a symbol delivers this symbol
    and its length - also if the code is incomplete or oversubscribed. *)
Theorem C70_symbol m sizes md w s : any_lengths sizes -> prepare_decoder_tables m sizes = Ok md ->
  0 <= w < 2 ^ 32 -> starts_with sizes (w / 2 ^ 16) s -> lookup_symbol m md w = Ok (s, znth sizes s).
Proof. intros HA HP. apply (lookup_coded m sizes md HA HP). Qed.
(** The codes split the words below their total share, without gaps or overlaps. *)
Theorem C70_every_word sizes w : any_lengths sizes -> 0 <= w < sum (map share sizes) ->
  exists s, starts_with sizes w s /\ forall t, starts_with sizes w t -> t = s.
Proof.
  intros HA Hw. pose proof HA as [Hl HF]. rewrite <- weight_all in Hw by exact HF.
  destruct (starts_ex sizes HF w Hw) as (s & S). exists s. split; [apply starts_spec; auto|].
  intros t Ht. apply starts_spec in Ht; [|exact HF]. exact (starts_inj sizes Hl HF w t s Ht S).
Qed.
(** Words above are refused ... *)
Theorem C70_no_symbol m sizes md w : any_lengths sizes -> prepare_decoder_tables m sizes = Ok md ->
  (exists s, coded sizes s) -> 0 <= w < 2 ^ 32 -> sum (map share sizes) <= w / 2 ^ 16 ->
  lookup_symbol m md w = Err "".
Proof. intros HA HP Hex Hw L. apply (lookup_none m sizes md HA HP w Hw Hex L). Qed.
(** ... except that a code without a single code word makes every look-up panic. *)
Theorem C70_no_code m sizes : any_lengths sizes -> (forall s, ~ coded sizes s) ->
  exists md, prepare_decoder_tables m sizes = Ok md /\
    (forall w, 0 <= w < 2 ^ 32 -> lookup_symbol m md w = Panic) /\
    (forall c, 0 <= c_bit_count c <= 32 -> 0 <= c_bit_buf c < 2 ^ 32 -> decode m md c = Panic).
Proof.
  intros HA No. destruct (prepare_spec m sizes HA) as [(md & E & _)|(_ & [O _])].
  - exists md. split; [exact E|]. split.
    + intros w Hw. apply (lookup_empty m sizes md HA E); [lia|exact No].
    + intros c H1 H2. apply (decode_empty m sizes md c HA E No). split; assumption.
  - exfalso. apply Exists_exists in O as (x & Hx & Lx). apply (In_nth _ _ 0) in Hx as (k & Hk & Ek).
    apply (No (Z.of_nat k)). split; [unfold zlen; lia|]. unfold znth. rewrite Nat2Z.id, Ek. lia.
Qed.
(** From any state of the codec with a byte to look at, decoding gives a
    symbol with a code or an error. *)
Theorem C70_decode m sizes md c : any_lengths sizes -> prepare_decoder_tables m sizes = Ok md ->
  (exists s, coded sizes s) -> 0 <= c_bit_count c <= 32 -> 0 <= c_bit_buf c < 2 ^ 32 ->
  0 <= c_pos c < zlen (c_buf c) -> c_end c < zlen (c_buf c) ->
  decode m md c = Err "" \/ exists s c', decode m md c = Ok (s, c') /\ coded sizes s.
Proof. intros HA HP Hex H1 H2 Hp He. apply (decode_any m sizes md c HA HP Hex); [split; assumption|exact Hp|exact He]. Qed.

Definition crowded : list Z := [1; 2; 1; 1].
Lemma crowded_any : any_lengths crowded.
Proof. split; [vm_compute; split; congruence|repeat (constructor; [lia|]); constructor]. Qed.
Lemma many_ones_any : any_lengths (repeat 1 17).
Proof. split; [vm_compute; split; congruence|apply Forall_forall; intros x Hx; apply repeat_spec in Hx; lia]. Qed.
(** An oversubscribed code of four symbols is accepted (two of them can never
    be read), one of 17 symbols refused. *)
Example C70_ex m : any_lengths crowded /\ 2 ^ 16 < sum (map share crowded) /\
  (exists md, prepare_decoder_tables m crowded = Ok md /\ lookup_symbol m md (3 * 2 ^ 30) = Ok (2, 1) /\ lookup_symbol m md 5 = Ok (0, 1)) /\
  prepare_decoder_tables m (repeat 1 17) = Err "".
Proof.
  split; [exact crowded_any|]. split; [vm_compute; reflexivity|]. split.
  - destruct (proj1 (C70_tables m crowded crowded_any)) as (md & E).
    { intros [_ O]. vm_compute in O. discriminate. }
    exists md. split; [exact E|].
    split; [apply (C70_symbol m crowded md (3 * 2 ^ 30) 2 crowded_any E)|apply (C70_symbol m crowded md 5 0 crowded_any E)]; try lia;
      (split; [split; [vm_compute; split; congruence|vm_compute; congruence]|vm_compute; split; congruence]).
  - apply (proj2 (C70_tables m (repeat 1 17) many_ones_any)). split; [|vm_compute; reflexivity].
    apply Exists_exists. exists 1. split; [left; reflexivity|vm_compute; split; reflexivity].
Qed.
(** An incomplete code and one without code words. *)
Example C70_ex2 m : exists md, prepare_decoder_tables m [0; 2; 0] = Ok md /\
  lookup_symbol m md 7 = Ok (1, 2) /\ lookup_symbol m md (2 ^ 31) = Err "" /\
  exists md0, prepare_decoder_tables m [0; 0] = Ok md0 /\ lookup_symbol m md0 7 = Panic.
Proof.
  assert (any_lengths [0; 2; 0]) as HA by (split; [vm_compute; split; congruence|repeat (constructor; [lia|]); constructor]).
  assert (coded [0; 2; 0] 1) as Hc by (split; [vm_compute; split; congruence|vm_compute; congruence]).
  destruct (proj1 (C70_tables m _ HA)) as (md & E).
  { intros [_ O]. vm_compute in O. discriminate. }
  exists md. split; [exact E|]. split; [|split].
  - apply (C70_symbol m _ md 7 1 HA E); [lia|]. split; [exact Hc|vm_compute; split; congruence].
  - apply (C70_no_symbol m _ md (2 ^ 31) HA E); [eauto|lia|vm_compute; congruence].
  - destruct (C70_no_code m [0; 0]) as (md0 & E0 & L & _); [|intros s [Hs Hn]|].
    + split; [vm_compute; split; congruence|repeat (constructor; [lia|]); constructor].
    + change (zlen [0; 0]) with 2 in Hs. assert (s = 0 \/ s = 1) as [->| ->] by lia; apply Hn; reflexivity.
    + exists md0. split; [exact E0|]. apply L. lia.
Qed.
Print Assumptions C70_tables.
Print Assumptions C70_kraft.
Print Assumptions C70_symbol.
Print Assumptions C70_every_word.
Print Assumptions C70_no_symbol.
Print Assumptions C70_no_code.
Print Assumptions C70_decode.

(** ** C38: the section of the codes *)
(** Files with an acceptable header whose section of codes does not lie in the
    file panic; an empty section is an error. *)
Theorem C38_tables_code m data w h image : bytes data -> zlen data < 2 ^ 32 -> Z.max 74 (header_room data) <= zlen data ->
  well_formed data = true -> znth data 18 <= 15 ->
  let ofs := number data 67 3 in let size := number data 65 2 in
  (zlen data < ofs \/ 0 < size /\ zlen data < ofs + size ->
     decode_crunch m data w h image = Panic /\ decode_unity_crunch m data w h image = Panic) /\
  (ofs <= zlen data -> size = 0 ->
     decode_crunch m data w h image = Ok (Failed "Failed to initialize Crunch decompressor.", image) /\
     decode_unity_crunch m data w h image = Ok (Failed "Failed to initialize Crunch decompressor.", image)).
Proof.
  intros Hb Hl Hr Hw Hf ofs size. pose proof (tables_section m data Hb Hr) as T. cbv zeta in T. fold ofs in T. fold size in T. split.
  - intros C. apply (tables_panic m data Hb Hl Hr Hw Hf). rewrite T. destruct (Z.ltb_spec (zlen data) ofs); [reflexivity|].
    destruct (Z.eqb_spec size 0); [lia|]. destruct (Z.ltb_spec (zlen data - ofs) size); [reflexivity|lia].
  - intros C E. apply (tables_err m data Hb Hl Hr Hw Hf w h image ""). rewrite T. destruct (Z.ltb_spec (zlen data) ofs); [lia|].
    destruct (Z.eqb_spec size 0); [reflexivity|lia].
Qed.
(** Every file whose first code is transmitted by a code without code words
    panics: a symbol count [T] other than 0, and [n] zero lengths. *)
Theorem C38_no_code_code m data w h image T n bs : bytes data -> zlen data < 2 ^ 32 -> Z.max 74 (header_room data) <= zlen data ->
  well_formed data = true -> znth data 18 <= 15 ->
  let ofs := number data 67 3 in let size := number data 65 2 in
  1 <= size <= zlen data - ofs -> 1 <= T < 2 ^ 14 -> 1 <= n <= 21 ->
  bit_stream (firstn (Z.to_nat size) (skipn (Z.to_nat ofs) data)) =
    bits_of 14 T ++ bits_of 5 n ++ repeat false (Z.to_nat (3 * n)) ++ bs ->
  decode_crunch m data w h image = Panic /\ decode_unity_crunch m data w h image = Panic.
Proof.
  intros Hb Hl Hr Hw Hf ofs size Hs HT Hn E. apply (tables_panic m data Hb Hl Hr Hw Hf).
  exact (no_code_panic m data Hb Hr T n bs Hs HT Hn E).
Qed.
(** 77 bytes, all sections inside the file. *)
Definition no_code_file : list Z :=
  [72; 120; 0; 74; 1; 2; 0; 0; 0; 77; 3; 4; 0; 8; 0; 4; 1; 1; 2] ++ repeat 0 46 ++ [0; 3; 0; 0; 74; 0; 0; 1; 5; 0; 4; 32].
Lemma no_code_bytes : bytes no_code_file.
Proof. unfold no_code_file. repeat (constructor; [unfold is_byte; lia|]). constructor. Qed.
Example C38_no_code_ex m image : decode_crunch m no_code_file 8 4 image = Panic /\ decode_unity_crunch m no_code_file 8 4 image = Panic.
Proof.
  apply (C38_no_code_code m no_code_file 8 4 image 1 1 [false; false] no_code_bytes); try lia; vm_compute; congruence || (split; congruence).
Qed.
Example C38_tables_ex m image : decode_crunch m wild_file 4 4 image = Panic /\
  decode_crunch m sample_file 4 4 image = Ok (Failed "Failed to initialize Crunch decompressor.", image).
Proof.
  split.
  - apply (C38_tables_code m wild_file 4 4 image); [|reflexivity|vm_compute; congruence|reflexivity|vm_compute; congruence|left; reflexivity].
    unfold wild_file. repeat (constructor; [unfold is_byte; lia|]). constructor.
  - apply (C38_tables_code m sample_file 4 4 image); [|reflexivity|vm_compute; congruence|reflexivity|vm_compute; congruence|vm_compute; congruence|reflexivity].
    unfold sample_file. repeat (constructor; [unfold is_byte; lia|]). constructor.
Qed.
Print Assumptions C38_tables_code.
Print Assumptions C38_no_code_code.
