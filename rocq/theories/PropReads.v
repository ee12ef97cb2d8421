(** * C40: exactly which sequences of reads succeed *)
From Verif Require Import Base BaseLemmas ModelCrn SpecCrn SpecReads ProofCrnRead ProofReads PropCrn.

(** Any sequence of symbols and raw fields, read off the first [size] bytes of
    a slice that start with their bits: the values are delivered, unless the
    slice ends there and a symbol is read after a raw read took its last byte;
    then the code panics. *)
Theorem C40_reads_code m items buf size rest : Forall item_ok items -> bytes buf -> 1 <= size <= zlen buf ->
  bit_stream (firstn (Z.to_nat size) buf) = flat_map item_bits items ++ rest ->
  exists c, start_decoding buf size = Ok c /\
    if (size <? zlen buf) || reads_through size 0 0 items
    then exists c', read_items m items c = Ok (map item_value items, c')
    else read_items m items c = Panic.
Proof.
  intros HF Hb Hs E. destruct (Z.ltb_spec size (zlen buf)) as [L|L]; cbn [orb].
  - destruct (C40_reads_partial m items buf size rest HF Hb Hs E (or_intror L)) as (c & c' & S & R). exists c. eauto.
  - assert (size = zlen buf) as -> by lia. apply reads_exact with rest; auto; [lia|].
    rewrite <- E. unfold zlen. rewrite Nat2Z.id, firstn_all. reflexivity.
Qed.
(** A slice of three bytes: a symbol after a raw field that took the last byte,
    the same the other way round, and the panic of [C40_end_of_slice_refuted]. *)
Example C40_code_ex m : let sym := Sym [1; 1] 0 in
  reads_through 3 0 0 [Raw 16 0; sym; Raw 7 0] = true /\ reads_through 3 0 0 [Raw 16 0; Raw 1 0; sym] = false /\
  reads_through 3 0 0 [sym; sym; Raw 16 0; sym] = true /\ reads_through 3 0 0 [Raw 16 0; Raw 8 0; Raw 0 0] = true /\
  reads_through 1 0 0 [Raw 1 0; sym] = false /\
  (let* c := start_decoding [0; 0; 0] 3 in read_items m [Raw 16 0; Raw 1 0; sym] c) = Panic /\
  (exists c', (let* c := start_decoding [0; 0; 0] 3 in read_items m [Raw 16 0; sym; Raw 7 0] c) = Ok ([0; 0; 0], c')) /\
  Forall item_ok [Raw 16 0; sym; Raw 7 0] /\ bit_stream [0; 0; 0] = flat_map item_bits [Raw 16 0; sym; Raw 7 0].
Proof.
  cbv zeta. do 5 (split; [vm_compute; reflexivity|]). split; [destruct m; vm_compute; reflexivity|].
  split; [destruct m; eexists; vm_compute; reflexivity|]. split; [|vm_compute; reflexivity].
  constructor; [cbn; lia|]. constructor; [|constructor; [cbn; lia|constructor]]. split.
  - split; [vm_compute; split; congruence|split; [repeat (constructor; [lia|]); constructor|vm_compute; congruence]].
  - split; [vm_compute; split; congruence|vm_compute; congruence].
Qed.
Print Assumptions C40_reads_code.
