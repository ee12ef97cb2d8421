(** * ASTC: decoding a block returns normally or panics *)
From Verif Require Import Base BaseLemmas ModelColor ModelBits ModelF16 ModelAstc ProofNoErr.
#[local] Hint Resolve ne_ok ne_panic ne_ua ne_ia ne_sh ne_ushl ne_ushr ne_ishl ne_idx ne_upd ne_slice ne_slice_from ne_copy_into : ne.

Lemma ne_getbits m d p n : no_err (getbits m d p n). Proof. ne_tac. Qed.
Lemma ne_getbits64 m d p n : no_err (getbits64 m d p n). Proof. ne_tac. Qed.
Lemma ne_ptr16 l : no_err (u8ptr_to_u16 l). Proof. ne_tac. Qed.
Lemma ne_rev8 m c n : no_err (bit_reverse_u8 m c n). Proof. ne_tac. Qed.
Lemma ne_rev64 m c n : no_err (bit_reverse_u64 m c n). Proof. ne_tac. Qed.
#[local] Hint Resolve ne_getbits ne_getbits64 ne_ptr16 ne_rev8 ne_rev64 : ne.
Lemma ne_trit m d b : no_err (trit_index m d b). Proof. ne_tac. Qed.
Lemma ne_quint m d b : no_err (quint_index m d b). Proof. ne_tac. Qed.
#[local] Hint Resolve ne_trit ne_quint : ne.
Lemma ne_intseq m buf o a b c r out : no_err (decode_intseq m buf o a b c r out).
Proof. unfold decode_intseq, packed_loop. ne_tac. Qed.
Lemma ne_grid buf : no_err (block_grid buf). Proof. ne_tac. Qed.
Lemma ne_cem m buf n wb : no_err (block_cem m buf n wb). Proof. ne_tac. Qed.
#[local] Hint Resolve ne_intseq ne_grid ne_cem : ne.
Lemma ne_params m buf : no_err (decode_block_params m buf). Proof. ne_tac. Qed.
Lemma ne_hdr7 m v : no_err (decode_endpoints_hdr7 m v). Proof. ne_tac. Qed.
Lemma ne_hdr11 m v a b : no_err (decode_endpoints_hdr11 m v a b). Proof. ne_tac. Qed.
#[local] Hint Resolve ne_params ne_hdr7 ne_hdr11 : ne.
Lemma ne_unquant_endpoint m a n s : no_err (unquant_endpoint m a n s). Proof. ne_tac. Qed.
Lemma ne_unquant_weight m a n s : no_err (unquant_weight m a n s). Proof. ne_tac. Qed.
#[local] Hint Resolve ne_unquant_endpoint ne_unquant_weight : ne.
Lemma ne_decode_cem m c v : no_err (decode_cem m c v). Proof. ne_tac. Qed.
#[local] Hint Resolve ne_decode_cem : ne.
Lemma ne_endpoints m buf d : no_err (decode_endpoints m buf d). Proof. ne_tac. Qed.
Lemma ne_weight_values m buf d : no_err (weight_values m buf d). Proof. ne_tac. Qed.
Lemma ne_infill m bw bh w h dual wv : no_err (infill_weights m bw bh w h dual wv). Proof. ne_tac. Qed.
#[local] Hint Resolve ne_endpoints ne_weight_values ne_infill : ne.
Lemma ne_partition_of m s r n x y : no_err (partition_of m s r n x y). Proof. ne_tac. Qed.
#[local] Hint Resolve ne_partition_of : ne.
Lemma ne_select_partition m buf bw bh n : no_err (select_partition m buf bw bh n). Proof. ne_tac. Qed.
Lemma ne_pick m t c a b w : no_err (pick_color m t c a b w). Proof. ne_tac. Qed.
#[local] Hint Resolve ne_select_partition ne_pick : ne.
Lemma ne_applicate m bw bh d e w p out : no_err (applicate_color m bw bh d e w p out). Proof. ne_tac. Qed.
Lemma ne_f16 m buf o : no_err (f16ptr_to_u8 m buf o). Proof. ne_tac. Qed.
#[local] Hint Resolve ne_applicate ne_f16 : ne.
Lemma ne_astc_block m buf bw bh out : no_err (decode_astc_block m buf bw bh out). Proof. ne_tac. Qed.
#[local] Hint Resolve ne_astc_block ne_copy_block : ne.
Lemma ne_astc m data w h bw bh image : no_err (decode_astc m data w h bw bh image). Proof. ne_tac. Qed.
