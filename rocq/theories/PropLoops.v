(** * C64: every loop of the source comes to an end *)
From Verif Require Import Base BaseLemmas ModelBits ModelBc7 ModelPvrtc ModelCrn ModelLoops SpecLoops ProofLoops.

(** A loop has one outcome at most. *)
Theorem C64_one_outcome {S R} (body : S -> res (S + R)) s o o' : runs body s o -> runs body s o' -> o' = o.
Proof. intros H H'. exact (runs_fun body s o H o' H'). Qed.
(** A loop without an outcome: the relation does not hold of everything. *)
Example C64_endless o : ~ runs (fun n : Z => Ok (@inl Z Z (n + 1))) 0 o.
Proof.
  assert (G : forall s o, ~ runs (fun n : Z => Ok (@inl Z Z (n + 1))) s o); [|apply G].
  intros s o' H. induction H as [s r E|s e E|s E|s s' o' E H IH]; [discriminate|discriminate|discriminate|exact IH].
Qed.

(** BC7: the search for the mode, on data of any length. *)
Theorem C64_bc7_mode m data : runs (bc7_mode_body m data) (0, 0) (bc7_mode_loop m 9 data 0 0).
Proof. apply bc7_runs; cbn; lia. Qed.
Example C64_bc7_ex m : runs (bc7_mode_body m (0 :: 0 :: repeat 7 14)) (0, 0) (Ok (8, 9)) /\ runs (bc7_mode_body m []) (0, 0) Panic.
Proof.
  split.
  - replace (Ok (8, 9)) with (bc7_mode_loop m 9 (0 :: 0 :: repeat 7 14) 0 0) by (destruct m; vm_compute; reflexivity). apply C64_bc7_mode.
  - replace Panic with (bc7_mode_loop m 9 [] 0 0) by (destruct m; vm_compute; reflexivity). apply C64_bc7_mode.
Qed.

(** PVRTC: the index of any block of a picture of any `usize` width and
    height, blocks being 4 or 8 wide and 4 high. *)
Theorem C64_pvrtc m x y w h bw : 0 <= w < 2 ^ 64 -> 0 <= h < 2 ^ 64 -> bw = 4 \/ bw = 8 ->
  let d := Z.min ((w + bw - 1) / bw) ((h + 3) / 4) in
  runs (morton_body m x y d) (0, 0, 1) (morton_loop m 65 x y d 0 0 1).
Proof.
  intros Hw Hh Hb d. apply (morton_runs m x y d) with (shift := 0); [|lia|cbn; lia].
  unfold d. assert ((h + 3) / 4 <= 2 ^ 63); [|lia]. apply Z.div_le_upper_bound; lia.
Qed.
(** The range is needed: past 2^63 the release build would loop for ever. *)
Theorem C64_pvrtc_range x y d o : 2 ^ 63 < d -> ~ runs (morton_body Wrapping x y d) (0, 0, 1) o.
Proof. intros H. apply (morton_hangs x y d H 64 0); [lia|reflexivity]. Qed.
Example C64_pvrtc_ex m : runs (morton_body m 5 3 (Z.min ((32 + 4 - 1) / 4) ((16 + 3) / 4))) (0, 0, 1) (Ok (7, 2)).
Proof.
  replace (Ok (7, 2)) with (morton_loop m 65 5 3 (Z.min ((32 + 4 - 1) / 4) ((16 + 3) / 4)) 0 0 1) by (destruct m; vm_compute; reflexivity).
  apply C64_pvrtc; lia.
Qed.

(** Reading raw bits, in any state reached by any calls on any bytes. *)
Theorem C64_get_bits m c n : reached m c -> 0 <= n <= 32 -> runs (get_bits_body m n) c (get_bits_loop m 5 n c).
Proof. intros R Hn. apply reached_fits in R as [F _]. apply get_bits_runs; [lia|lia|]. change (Z.of_nat 5) with 5. lia. Qed.
(** Such a state never holds more than 32 bits, nor a negative number. *)
Theorem C64_bit_count m c : reached m c -> 0 <= c_bit_count c <= 32 /\ 0 <= c_bit_buf c < 2 ^ 32.
Proof. apply reached_fits. Qed.
Example C64_reached_ex m : exists c1 c2 md, start_decoding [171; 205; 239; 1; 2; 3] 6 = Ok c1 /\ reached m c1 /\
  prepare_decoder_tables m [1; 1] = Ok md /\ usable m md /\ decode m md c1 = Ok (1, c2) /\ reached m c2 /\ c_bit_count c2 = 15 /\
  exists c3, runs (get_bits_body m 31) c2 (Ok c3) /\ c_bit_count c3 = 31 /\ c_pos c3 = 4.
Proof.
  destruct (start_decoding [171; 205; 239; 1; 2; 3] 6) as [c1|e|] eqn:E1; [|discriminate|discriminate].
  destruct (prepare_decoder_tables m [1; 1]) as [md|e|] eqn:E2; [|destruct m; vm_compute in E2; discriminate|destruct m; vm_compute in E2; discriminate].
  assert (R1 : reached m c1) by (exact (reached_start m _ _ c1 E1)).
  assert (U : usable m md) by (right; exists [1; 1]; exact E2).
  destruct (decode m md c1) as [[s c2]|e|] eqn:E3.
  2,3: exfalso; vm_compute in E1; inversion E1; subst c1; destruct m; vm_compute in E2; inversion E2; subst md; vm_compute in E3; discriminate.
  exists c1, c2, md. split; [reflexivity|]. split; [exact R1|]. split; [reflexivity|]. split; [exact U|].
  assert (R2 : reached m c2) by (exact (reached_symbol m md c1 s c2 R1 U E3)).
  pose proof (C64_get_bits m c2 31 R2 ltac:(lia)) as G. clear R1 U.
  vm_compute in E1. inversion E1; subst c1. destruct m; vm_compute in E2; inversion E2; subst md; vm_compute in E3; inversion E3; subst s c2;
    (split; [reflexivity|]; split; [exact R2|]; split; [reflexivity|];
     match type of G with runs _ _ ?o => let r := eval vm_compute in o in change o with r in G end; eexists; split; [exact G|split; reflexivity]).
Qed.

(** Receiving a Huffman model: any code-length model, any number of symbols. *)
Theorem C64_receive m dm c total : reached m c -> usable m dm -> 0 <= total ->
  runs (receive_body m dm total) (repeat 0 (Z.to_nat total), 0, c)
    (receive_loop m (Z.to_nat total) dm total (repeat 0 (Z.to_nat total), 0, c)).
Proof. intros R U H. apply receive_runs; [exact U|exact (reached_fits m c R)|lia]. Qed.

(** Looking for the length of a code, in the tables of any model. *)
Theorem C64_code_length m md k : usable m md ->
  let t := m_tables md in
  runs (code_length_body m (t_max_codes t) k) (t_decode_start_code_size t)
    (let* from := ua m 32 (t_decode_start_code_size t - 1) in
     let* l := slice_from (t_max_codes t) from in code_length k l (t_decode_start_code_size t)).
Proof. intros U t. destruct (usable_start m md U). apply code_length_loop; subst t; lia. Qed.

(** Looking for the last code length in use, when the tables are built. *)
Theorem C64_last_used m num_codes n : 0 <= n < 2 ^ 32 ->
  runs (last_used_body m num_codes) n
    (let* found := first_with (fun i => let* n := idx num_codes i in Ok (negb (n =? 0))) (rev (zrange 1 (n + 1))) in
     Ok match found with Some i => i | None => 0 end).
Proof. intros H. rewrite <- (Z2Nat.id n) by lia. apply last_used_runs. lia. Qed.

(** The number of bits of any `u32`. *)
Theorem C64_total_bits m v : 0 <= v < 2 ^ 32 -> runs (total_bits_body m) (v, 0) (Ok (total_bits v)).
Proof. intros H. apply (total_bits_runs m 32 v 0); [exact H|lia|cbn; lia]. Qed.

(** The counting loops: [num] rounds of step [k] up to k * num. *)
Theorem C64_counting {S} m k num (f : Z -> S -> res S) s : 1 <= k -> 0 <= num -> k * num < 2 ^ 64 ->
  runs (count_body m k (k * num) f) (0, s) (for_range 0 num (fun i => f (k * i)) s).
Proof. intros Hk Hn Hb. pose proof (count_runs m k num f Hk Hb (Z.to_nat num) 0 s ltac:(lia) ltac:(lia)) as G. rewrite Z.mul_0_r in G. exact G. Qed.

Example C64_ex m : (exists c md, start_decoding [160; 0] 2 = Ok c /\ reached m c /\ prepare_decoder_tables m [1; 1] = Ok md /\ usable m md /\
    exists c', runs (receive_body m md 3) ([0; 0; 0], 0, c) (Ok ([1; 0; 1], c'))) /\
  runs (last_used_body m [0; 3; 0; 0]) 3 (Ok 1) /\ runs (last_used_body m [0; 0]) 1 (Ok 0) /\
  runs (total_bits_body m) (8192, 0) (Ok 14) /\
  runs (count_body m 6 (6 * 3) (fun i s => Ok (s ++ [i]))) (0, []) (Ok [0; 6; 12]).
Proof.
  split; [|split; [|split; [|split]]].
  - destruct (start_decoding [160; 0] 2) as [c|e|] eqn:E1; [|discriminate|discriminate].
    destruct (prepare_decoder_tables m [1; 1]) as [md|e|] eqn:E2; [|destruct m; vm_compute in E2; discriminate|destruct m; vm_compute in E2; discriminate].
    assert (R1 : reached m c) by (exact (reached_start m _ _ c E1)). assert (U : usable m md) by (right; exists [1; 1]; exact E2).
    exists c, md. split; [reflexivity|]. split; [exact R1|]. split; [reflexivity|]. split; [exact U|].
    pose proof (C64_receive m md c 3 R1 U ltac:(lia)) as G. change (repeat 0 (Z.to_nat 3)) with [0; 0; 0] in G.
    vm_compute in E1. inversion E1; subst c. destruct m; vm_compute in E2; inversion E2; subst md;
      match type of G with runs _ _ ?o => let r := eval vm_compute in o in change o with r in G end; eexists; exact G.
  - exact (C64_last_used m [0; 3; 0; 0] 3 ltac:(lia)).
  - exact (C64_last_used m [0; 0] 1 ltac:(lia)).
  - exact (C64_total_bits m 8192 ltac:(lia)).
  - exact (C64_counting m 6 3 (fun i s => Ok (s ++ [i])) [] ltac:(lia) ltac:(lia) ltac:(lia)).
Qed.
Example C64_code_length_ex m : exists md, prepare_decoder_tables m [2; 1; 2] = Ok md /\ usable m md /\
  runs (code_length_body m (t_max_codes (m_tables md)) 40000) (t_decode_start_code_size (m_tables md)) (Ok 2) /\
  runs (code_length_body m (t_max_codes default_tables) 1) (t_decode_start_code_size default_tables) Panic.
Proof.
  destruct (prepare_decoder_tables m [2; 1; 2]) as [md|e|] eqn:E2; [|destruct m; vm_compute in E2; discriminate|destruct m; vm_compute in E2; discriminate].
  assert (U : usable m md) by (right; exists [2; 1; 2]; exact E2). exists md. split; [reflexivity|]. split; [exact U|].
  pose proof (C64_code_length m md 40000 U) as G. pose proof (C64_code_length m default_model 1 (or_introl eq_refl)) as G'. cbv zeta in G, G'.
  destruct m; vm_compute in E2; inversion E2; subst md;
    (split; [match type of G with runs _ _ ?o => let r := eval vm_compute in o in change o with r in G end; exact G
            |match type of G' with runs _ _ ?o => let r := eval vm_compute in o in change o with r in G' end; exact G']).
Qed.
Print Assumptions C64_one_outcome.
Print Assumptions C64_bc7_mode.
Print Assumptions C64_pvrtc.
Print Assumptions C64_pvrtc_range.
Print Assumptions C64_get_bits.
Print Assumptions C64_bit_count.
Print Assumptions C64_receive.
Print Assumptions C64_code_length.
Print Assumptions C64_last_used.
Print Assumptions C64_total_bits.
Print Assumptions C64_counting.
