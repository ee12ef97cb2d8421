(** * Every loop comes to an end *)
From Verif Require Import Base BaseLemmas ModelBits ModelBc7 ModelPvrtc ModelCrn ModelLoops SpecLoops.

Ltac step H := let a := fresh "a" in let E := fresh "E" in apply bind_ok_inv in H as (a & E & H).

Lemma runs_fun {S R} (body : S -> res (S + R)) s o : runs body s o -> forall o', runs body s o' -> o' = o.
Proof.
  induction 1 as [s r E|s e E|s E|s s' o E H IH]; intros o' H'; inversion H' as [? ? E'|? ? E'|? E'|? ? ? E' H'']; subst; rewrite E in E';
    inversion E'; subst; auto.
Qed.

(** ** BC7 *)
Lemma bc7_runs m data : forall fuel pos mode, 0 <= mode <= 8 -> 8 < mode + Z.of_nat fuel ->
  runs (bc7_mode_body m data) (pos, mode) (bc7_mode_loop m fuel data pos mode).
Proof.
  induction fuel as [|f IH]; intros pos mode H L;
    [change (Z.of_nat 0) with 0 in L; lia|].
  - cbn [bc7_mode_loop].
    destruct (read m data pos 1) as [[b p]|e|] eqn:E; cbn [bind].
    + destruct ((b =? 0) && (mode <? 8)) eqn:B.
      * apply andb_prop in B as [B1 B2]. apply Z.ltb_lt in B2. rewrite ua_ok by lia. cbn [bind].
        apply runs_more with (p, mode + 1); [|apply IH; lia].
        unfold bc7_mode_body. rewrite E. cbn [bind]. rewrite B1. destruct (Z.ltb_spec mode 8); [|lia]. cbn [andb].
        rewrite ua_ok by lia. reflexivity.
      * apply runs_done. unfold bc7_mode_body. rewrite E. cbn [bind]. rewrite B. reflexivity.
    + apply runs_err. unfold bc7_mode_body. rewrite E. reflexivity.
    + apply runs_panic. unfold bc7_mode_body. rewrite E. reflexivity.
Qed.

(** ** PVRTC *)
Lemma morton_runs m x y d : d <= 2 ^ 63 -> forall fuel shift offset, 0 <= shift <= 63 -> 63 < shift + Z.of_nat fuel ->
  runs (morton_body m x y d) (offset, shift, 2 ^ shift) (morton_loop m fuel x y d offset shift (2 ^ shift)).
Proof.
  intros Hd. induction fuel as [|f IH]; intros shift offset H L; [change (Z.of_nat 0) with 0 in L; lia|].
  cbn [morton_loop]. destruct (Z.ltb_spec (2 ^ shift) d) as [Hlt|Hge].
  - assert (Hs : shift < 63). { destruct (Z.eq_dec shift 63) as [->|]; [lia|lia]. }
    assert (E1 : ushl m 64 (2 ^ shift) 1 = Ok (2 ^ (shift + 1))).
    { unfold ushl, sh_amt. cbn [andb Z.leb Z.ltb Z.compare Pos.compare Pos.compare_cont bind].
      rewrite Z.shiftl_mul_pow2 by lia. change (2 ^ 1) with 2. rewrite Z.pow_add_r by lia. change (2 ^ 1) with 2. rewrite Z.mod_small; [reflexivity|].
      assert (2 ^ (shift + 1) <= 2 ^ 63) by (apply Z.pow_le_mono_r; lia). rewrite Z.pow_add_r in H0 by lia. change (2 ^ 1) with 2 in H0.
      assert (0 < 2 ^ shift) by (apply Z.pow_pos_nonneg; lia). lia. }
    assert (E2 : ua m 64 (shift + 1) = Ok (shift + 1)) by (apply ua_ok; lia).
    destruct (ushl m 64 (Z.land x (2 ^ shift)) 1) as [a|e|] eqn:Ea; cbn [bind].
    + destruct (ushl m 64 (Z.lor (Z.land y (2 ^ shift)) a) shift) as [b|e|] eqn:Eb; cbn [bind].
      * rewrite E1. cbn [bind]. rewrite E2. cbn [bind].
        apply runs_more with (Z.lor offset b, shift + 1, 2 ^ (shift + 1)); [|apply IH; lia].
        unfold morton_body. destruct (Z.ltb_spec (2 ^ shift) d); [|lia]. rewrite Ea. cbn [bind]. rewrite Eb. cbn [bind]. rewrite E1. cbn [bind].
        rewrite E2. reflexivity.
      * apply runs_err. unfold morton_body. destruct (Z.ltb_spec (2 ^ shift) d); [|lia]. rewrite Ea. cbn [bind]. rewrite Eb. reflexivity.
      * apply runs_panic. unfold morton_body. destruct (Z.ltb_spec (2 ^ shift) d); [|lia]. rewrite Ea. cbn [bind]. rewrite Eb. reflexivity.
    + apply runs_err. unfold morton_body. destruct (Z.ltb_spec (2 ^ shift) d); [|lia]. rewrite Ea. reflexivity.
    + apply runs_panic. unfold morton_body. destruct (Z.ltb_spec (2 ^ shift) d); [|lia]. rewrite Ea. reflexivity.
  - apply runs_done. unfold morton_body. destruct (Z.ltb_spec (2 ^ shift) d); [lia|]. reflexivity.
Qed.

(** ** The codec *)
Definition fits (c : codec) : Prop := 0 <= c_bit_count c <= 32 /\ 0 <= c_bit_buf c < 2 ^ 32.

Lemma ushl_range m w x s y : 0 <= w -> ushl m w x s = Ok y -> 0 <= y < 2 ^ w.
Proof.
  unfold ushl. intros Hw H. step H. inversion H. apply Z.mod_pos_bound, Z.pow_pos_nonneg; lia.
Qed.
Lemma lor_range a b w : 0 <= w -> 0 <= a < 2 ^ w -> 0 <= b < 2 ^ w -> 0 <= Z.lor a b < 2 ^ w.
Proof.
  intros Hw Ha Hb. assert (0 <= Z.lor a b) by (apply Z.lor_nonneg; lia). split; [assumption|].
  destruct (Z.eq_dec (Z.lor a b) 0) as [->|N]; [apply Z.pow_pos_nonneg; lia|].
  apply Z.log2_lt_pow2; [lia|]. rewrite Z.log2_lor by lia.
  assert (K : forall v, 0 <= v < 2 ^ w -> 0 < w \/ v = 0). { intros v Hv. destruct (Z.eq_dec w 0) as [->|]; [right; change (2 ^ 0) with 1 in Hv; lia|left; lia]. }
  assert (P : 0 < w). { destruct (K a Ha) as [|Ea]; [assumption|]. destruct (K b Hb) as [|Eb]; [assumption|]. subst. exfalso. apply N. reflexivity. }
  assert (L : forall v, 0 <= v < 2 ^ w -> Z.log2 v < w).
  { intros v Hv. destruct (Z.eq_dec v 0) as [->|]; [change (Z.log2 0) with 0; lia|]. apply Z.log2_lt_pow2; lia. }
  apply Z.max_lub_lt; apply L; assumption.
Qed.

Lemma get_bits_runs m n : n <= 32 -> forall fuel c, 0 <= c_bit_count c -> n <= c_bit_count c + 8 * Z.of_nat fuel ->
  runs (get_bits_body m n) c (get_bits_loop m fuel n c).
Proof.
  intros Hn. induction fuel as [|f IH]; intros c H0 L.
  - cbn [get_bits_loop]. destruct (Z.ltb_spec (c_bit_count c) n); [lia|]. apply runs_done. unfold get_bits_body.
    destruct (Z.ltb_spec (c_bit_count c) n); [lia|reflexivity].
  - cbn [get_bits_loop]. destruct (Z.ltb_spec (c_bit_count c) n).
    + assert (EI : ia m 32 (c_bit_count c + 8) = Ok (c_bit_count c + 8)).
      { unfold ia. change (- 2 ^ (32 - 1)) with (-2147483648). change (2 ^ (32 - 1)) with 2147483648.
        destruct (Z.leb_spec (-2147483648) (c_bit_count c + 8)), (Z.ltb_spec (c_bit_count c + 8) 2147483648); try lia. reflexivity. }
      destruct (idx (c_buf c) (c_pos c)) as [b|e|] eqn:E; cbn [bind].
      * destruct (BIT_BUF_SIZE <? c_bit_count c + 8) eqn:B.
        -- apply runs_err. unfold get_bits_body. destruct (Z.ltb_spec (c_bit_count c) n); [|lia]. rewrite E. cbn [bind]. rewrite EI. cbn [bind]. rewrite B. reflexivity.
        -- destruct (ushl m 32 b (BIT_BUF_SIZE - (c_bit_count c + 8))) as [s|e|] eqn:U; cbn [bind].
           ++ eapply runs_more; [|apply IH; cbn [c_bit_count]; lia].
              unfold get_bits_body. destruct (Z.ltb_spec (c_bit_count c) n); [|lia]. rewrite E. cbn [bind]. rewrite EI. cbn [bind]. rewrite B, U. reflexivity.
           ++ apply runs_err. unfold get_bits_body. destruct (Z.ltb_spec (c_bit_count c) n); [|lia]. rewrite E. cbn [bind]. rewrite EI. cbn [bind]. rewrite B, U. reflexivity.
           ++ apply runs_panic. unfold get_bits_body. destruct (Z.ltb_spec (c_bit_count c) n); [|lia]. rewrite E. cbn [bind]. rewrite EI. cbn [bind]. rewrite B, U. reflexivity.
      * apply runs_err. unfold get_bits_body. destruct (Z.ltb_spec (c_bit_count c) n); [|lia]. rewrite E. reflexivity.
      * apply runs_panic. unfold get_bits_body. destruct (Z.ltb_spec (c_bit_count c) n); [|lia]. rewrite E. reflexivity.
    + apply runs_done. unfold get_bits_body. destruct (Z.ltb_spec (c_bit_count c) n); [lia|reflexivity].
Qed.

Lemma get_bits_loop_fits m n : forall fuel c c', fits c -> get_bits_loop m fuel n c = Ok c' -> fits c' /\ n <= c_bit_count c'.
Proof.
  induction fuel as [|f IH]; intros c c' F; cbn [get_bits_loop]; destruct (Z.ltb_spec (c_bit_count c) n); try discriminate.
  - intros E. inversion E; subst. auto.
  - intros E. step E. destruct (Z.ltb_spec BIT_BUF_SIZE (c_bit_count c + 8)) as [|B]; [discriminate|]. step E. apply IH in E; [assumption|].
    destruct F as [F1 F2]. change BIT_BUF_SIZE with 32 in *. split; cbn [c_bit_count c_bit_buf]; [lia|].
    apply lor_range; [lia|assumption|]. eapply ushl_range; [|exact E1]. lia.
  - intros E. inversion E; subst. auto.
Qed.
Lemma ushr_nonneg m w x s y : 0 <= x -> ushr m w x s = Ok y -> 0 <= y.
Proof. unfold ushr. intros H E. step E. inversion E. apply Z.shiftr_nonneg. assumption. Qed.
Lemma get_bits_fits m n c v c' : 0 <= n -> fits c -> get_bits m n c = Ok (v, c') -> fits c' /\ 0 <= v.
Proof.
  intros Hn F E. unfold get_bits in E. destruct (32 <? n); [discriminate|]. step E. step E. step E. inversion E; subst.
  apply get_bits_loop_fits in E0 as [[F1 F2] L]; [|assumption]. split; [split; cbn [c_bit_count c_bit_buf]; [lia|eapply ushl_range; [|exact E2]; lia]|].
  eapply ushr_nonneg; [|exact E1]. lia.
Qed.
Lemma decode_bits_fits m n c v c' : 0 <= n -> fits c -> decode_bits m n c = Ok (v, c') -> fits c' /\ 0 <= v.
Proof.
  intros Hn F E. unfold decode_bits in E. destruct (n =? 0); [inversion E; subst; split; [assumption|lia]|].
  destruct (Z.ltb_spec 16 n).
  - step E. destruct a as [a c1]. apply get_bits_fits in E0 as [F1 V1]; [|lia|assumption].
    step E. destruct a0 as [b c2]. apply get_bits_fits in E0 as [F2 V2]; [|lia|assumption]. step E. inversion E; subst.
    split; [assumption|]. apply Z.lor_nonneg. split; [|assumption]. eapply ushl_range in E0; lia.
  - apply get_bits_fits in E; assumption.
Qed.
Lemma refill_fits m c c' : fits c -> refill m c = Ok c' -> fits c' /\ 16 <= c_bit_count c'.
Proof.
  intros [F1 F2] E. unfold refill in E. destruct (Z.ltb_spec (c_bit_count c) 24); [|inversion E; subst; split; [split; assumption|lia]].
  destruct (Z.ltb_spec (c_bit_count c) 16).
  - step E. destruct a as [a p]. step E. destruct a0 as [b q]. step E. inversion E; subst. cbn [c_bit_count]. split; [|lia].
    split; cbn [c_bit_count c_bit_buf]; [lia|]. apply lor_range; [lia|assumption|]. eapply ushl_range; [|exact E2]. lia.
  - step E. destruct a as [a p]. step E. inversion E; subst. cbn [c_bit_count]. split; [|lia].
    split; cbn [c_bit_count c_bit_buf]; [lia|]. apply lor_range; [lia|assumption|]. eapply ushl_range; [|exact E1]. lia.
Qed.

(** ** Code lengths of a prepared model *)
Lemma upd_len {A} (l l' : list A) i v : upd l i v = Ok l' -> zlen l' = zlen l.
Proof. intros H. apply upd_inv in H as [_ ->]. unfold zlen. f_equal. generalize (Z.to_nat i). induction l; intros [|n]; cbn; auto. Qed.

Lemma length_loop_len m nc s : length_loop m nc = Ok s -> zlen (l_max_codes s) = 17 /\ zlen (l_val_ptrs s) = 17.
Proof.
  unfold length_loop. apply (for_range_ok_inv (fun _ s => zlen (l_max_codes s) = 17 /\ zlen (l_val_ptrs s) = 17)); [lia|split; reflexivity|].
  intros i s0 s1 _ I E. unfold length_step in E. step E. step E. step E. inversion E; subst. cbn [l_max_codes l_val_ptrs].
  destruct (a =? 0).
  - step E1. inversion E1; subst. cbn [l_max_codes l_val_ptrs]. apply upd_len in E3. lia.
  - do 12 step E1. inversion E1; subst. cbn [l_max_codes l_val_ptrs]. repeat match goal with H : upd _ _ _ = Ok _ |- _ => apply upd_len in H end. lia.
Qed.
Lemma adjust_len m vp mc r : adjust_val_ptrs m vp mc = Ok r -> zlen r = zlen vp.
Proof.
  unfold adjust_val_ptrs. apply (for_range_ok_inv (fun _ r => zlen r = zlen vp)); [lia|reflexivity|].
  intros i r0 r1 _ I E. step E. step E. step E. apply upd_len in E. lia.
Qed.
Lemma count_codes_small m : forall sizes n nc, (length sizes <= n)%nat -> count_codes m (Z.of_nat n) sizes = Ok nc -> Forall (fun c => 0 <= c <= 16) sizes.
Proof.
  intros sizes n nc L. unfold count_codes. rewrite Nat2Z.id, firstn_all2 by assumption. clear L n.
  assert (G : forall l acc nc, zlen acc = 17 -> for_list l (fun c num_codes =>
     if c =? 0 then Ok num_codes else let* n := idx num_codes c in let* n' := ua m 32 (n + 1) in upd num_codes c n') acc = Ok nc ->
     Forall (fun c => 0 <= c <= 16) l).
  { induction l as [|c l IH]; intros acc nc' Ha E; constructor; cbn [for_list] in E; step E; destruct (Z.eqb_spec c 0).
    - lia.
    - step E0. step E0. apply upd_inv in E0. lia.
    - inversion E0; subst. eapply IH; eauto.
    - step E0. step E0. eapply IH; [|exact E]. apply upd_len in E0. lia. }
  apply G. reflexivity.
Qed.
Lemma prepare_facts m sizes md : prepare_decoder_tables m sizes = Ok md ->
  m_code_sizes md = sizes /\ Forall (fun c => 0 <= c <= 16) sizes /\ m_total_syms md <= 8192 /\
  zlen (t_max_codes (m_tables md)) = 17 /\ zlen (t_val_ptrs (m_tables md)) = 17 /\ idx (t_val_ptrs (m_tables md)) 16 = Ok 1048575.
Proof.
  unfold prepare_decoder_tables. cbv zeta. destruct ((1 <=? zlen sizes) && (zlen sizes <=? MAX_SUPPORTED_SYMS)) eqn:B; [|discriminate].
  cbn [negb]. apply andb_prop in B as [_ B]. apply Z.leb_le in B. change MAX_SUPPORTED_SYMS with 8192 in B.
  intros E. step E. inversion E; subst. cbn [m_code_sizes m_total_syms m_tables]. split; [reflexivity|].
  unfold tables_init in E0. destruct ((zlen sizes =? 0) || (MAX_TABLE_BITS <? compute_decoder_table_bits (zlen sizes))); [discriminate|].
  step E0. step E0. step E0. destruct a2 as [p sorted]. step E0. step E0. step E0. destruct a4 as [tmc start]. step E0. step E0.
  inversion E0; subst. cbn [t_max_codes t_val_ptrs]. split; [|split; [assumption|split; [|split]]].
  - unfold zlen in E1. eapply count_codes_small; [|exact E1]. lia.
  - apply upd_len in E7. apply length_loop_len in E2. lia.
  - apply upd_len in E8. apply adjust_len in E5. apply length_loop_len in E2. lia.
  - apply upd_inv in E8 as [R ->]. change (Z.to_nat 16) with 16%nat. unfold idx. cbn [Z.leb Z.compare]. change (Z.to_nat 16) with 16%nat.
    unfold zlen in R. do 17 (destruct a3 as [|? a3]; [cbn in R; lia|]). reflexivity.
Qed.
Lemma code_length_bound k : forall l len r, code_length k l len = Ok r -> len <= r < len + zlen l.
Proof.
  induction l as [|x l IH]; intros len r; cbn [code_length]; [discriminate|]. unfold zlen in *. cbn [length].
  destruct (k <=? x); intros E; [inversion E; lia|]. apply IH in E. lia.
Qed.
Lemma idx_range {A} (l : list A) i v : idx l i = Ok v -> 0 <= i < zlen l.
Proof.
  unfold idx. destruct (Z.leb_spec 0 i); [|discriminate]. destruct (nth_error l (Z.to_nat i)) eqn:E; [|discriminate]. intros _.
  assert (N : nth_error l (Z.to_nat i) <> None) by congruence. apply nth_error_Some in N. unfold zlen. lia.
Qed.
Lemma lookup_len m md buf s len : usable m md -> 0 <= buf < 2 ^ 32 -> lookup_symbol m md buf = Ok (s, len) -> 0 <= len <= 16.
Proof.
  intros [->|[sizes P]] Hb E.
  - exfalso. unfold lookup_symbol in E. cbn [default_model default_tables m_tables t_table_max_code t_decode_start_code_size t_max_codes] in E.
    destruct (Z.leb_spec (Z.shiftr buf 16 + 1) 0) as [L|L].
    + assert (0 <= Z.shiftr buf 16) by (apply Z.shiftr_nonneg; lia). lia.
    + destruct m; vm_compute in E; discriminate.
  - apply prepare_facts in P as (<- & F & T & _ & L17 & V). unfold lookup_symbol in E.
    destruct (Z.shiftr buf 16 + 1 <=? t_table_max_code (m_tables md)).
    + step E. step E. destruct (a0 =? 2 ^ 32 - 1); [discriminate|]. step E.
      destruct (Z.eqb_spec a1 (Z.shiftr a0 16)); [|discriminate]. cbn [negb] in E. inversion E; subst.
      rewrite Forall_forall in F. apply F. unfold idx in E2. destruct (0 <=? Z.land a0 65535); [|discriminate].
      destruct (nth_error (m_code_sizes md) (Z.to_nat (Z.land a0 65535))) eqn:N; [|discriminate]. inversion E2; subst. eapply nth_error_In; eauto.
    + step E. step E. step E. step E. step E. step E.
      destruct (Z.leb_spec (m_total_syms md) (u32 a4)) as [|K]; [discriminate|]. step E. inversion E; subst a1.
      pose proof (idx_range _ _ _ E3) as R.
      destruct (Z.eq_dec len 17) as [->|]; [exfalso|lia].
      change (17 - 1) with 16 in E3. rewrite V in E3. inversion E3; subst a2.
      change (32 - 17) with 15 in E4. unfold ushr, sh_amt in E4. cbn [andb Z.leb Z.ltb Z.compare Pos.compare Pos.compare_cont bind] in E4.
      inversion E4; subst a3. clear E4.
      assert (C : 0 <= Z.shiftr buf 15 < 2 ^ 17).
      { rewrite Z.shiftr_div_pow2 by lia. split; [apply Z.div_pos; lia|]. apply Z.div_lt_upper_bound; [lia|]. change (2 ^ 15 * 2 ^ 17) with (2 ^ 32). lia. }
      change (2 ^ 17) with 131072 in C. revert E5 K. generalize dependent (Z.shiftr buf 15). intros z C E5 K.
      assert (SW : swrap 32 z = z).
      { unfold swrap. cbv zeta. rewrite Z.mod_small by lia. destruct (Z.ltb_spec z (2 ^ (32 - 1))); [reflexivity|]. change (2 ^ (32 - 1)) with 2147483648 in *. lia. }
      rewrite SW in E5. unfold ia in E5. change (- 2 ^ (32 - 1)) with (-2147483648) in E5. change (2 ^ (32 - 1)) with 2147483648 in E5.
      destruct (Z.leb_spec (-2147483648) (1048575 + z)), (Z.ltb_spec (1048575 + z) 2147483648); try lia. cbn [andb] in E5. clear - E5 K T C. assert (Q : a4 = 1048575 + z) by congruence. subst a4.
      unfold u32 in K. rewrite Z.mod_small in K by lia. lia.
Qed.
Lemma decode_fits m md c s c' : usable m md -> fits c -> decode m md c = Ok (s, c') -> fits c'.
Proof.
  intros U F E. unfold decode in E. step E. apply refill_fits in E0 as [[F1 F2] L]; [|assumption]. step E. destruct a0 as [sym len].
  apply lookup_len in E0; [|assumption|assumption]. step E. inversion E; subst. split; cbn [c_bit_count c_bit_buf]; [lia|].
  eapply ushl_range; [|exact E1]. lia.
Qed.
Lemma reached_fits m c : reached m c -> fits c.
Proof.
  induction 1 as [buf size c E|n c v c' R IH Hn E|md c s c' R IH U E].
  - unfold start_decoding in E. destruct (size =? 0); [discriminate|]. step E. inversion E. split; cbn [c_bit_count c_bit_buf]; lia.
  - apply decode_bits_fits in E as [F _]; assumption.
  - eapply decode_fits; eauto.
Qed.

(** ** The receiving loop *)
Lemma receive_step_moves m dm total sizes ofs c sizes' ofs' c' : usable m dm -> fits c ->
  receive_step m dm total (sizes, ofs, c) = Ok (sizes', ofs', c') -> ofs < ofs' /\ fits c'.
Proof.
  intros U F E. unfold receive_step in E. cbv zeta in E. step E. destruct a as [code c1]. apply decode_fits in E0; [|assumption|assumption].
  destruct (code <=? 16); [step E; inversion E; subst; split; [lia|assumption]|].
  destruct (code =? SMALL_ZERO_RUN_CODE).
  { step E. destruct a as [s c2]. apply decode_bits_fits in E1 as [F2 V]; [|vm_compute; congruence|assumption].
    destruct (total - ofs <? s + MIN_SMALL_ZERO_RUN_SIZE); [discriminate|]. inversion E; subst. change MIN_SMALL_ZERO_RUN_SIZE with 3 in *. split; [lia|assumption]. }
  destruct (code =? LARGE_ZERO_RUN_CODE).
  { step E. destruct a as [s c2]. apply decode_bits_fits in E1 as [F2 V]; [|vm_compute; congruence|assumption].
    destruct (total - ofs <? s + MIN_LARGE_ZERO_RUN_SIZE); [discriminate|]. inversion E; subst. change MIN_LARGE_ZERO_RUN_SIZE with 11 in *. split; [lia|assumption]. }
  destruct ((code =? SMALL_REPEAT_CODE) || (code =? LARGE_REPEAT_CODE)); [|discriminate].
  step E. destruct a as [len c2].
  assert (L : 0 < len /\ fits c2).
  { destruct (code =? SMALL_REPEAT_CODE).
    - step E1. destruct a as [s c3]. apply decode_bits_fits in E2 as [F2 V]; [|vm_compute; congruence|assumption]. inversion E1; subst.
      change SMALL_MIN_NON_ZERO_RUN_SIZE with 3 in *. split; [lia|assumption].
    - step E1. destruct a as [s c3]. apply decode_bits_fits in E2 as [F2 V]; [|vm_compute; congruence|assumption]. inversion E1; subst.
      change LARGE_MIN_NON_ZERO_RUN_SIZE with 7 in *. split; [lia|assumption]. }
  destruct L as [L F2]. destruct ((ofs =? 0) || (total - ofs <? len)); [discriminate|]. step E. destruct (a =? 0); [discriminate|].
  step E. inversion E; subst. split; [lia|assumption].
Qed.
Lemma receive_runs m dm total : usable m dm -> forall fuel sizes ofs c, fits c -> total <= ofs + Z.of_nat fuel ->
  runs (receive_body m dm total) (sizes, ofs, c) (receive_loop m fuel dm total (sizes, ofs, c)).
Proof.
  intros U. induction fuel as [|f IH]; intros sizes ofs c F L.
  - cbn [receive_loop]. destruct (Z.ltb_spec ofs total); [lia|]. apply runs_done. unfold receive_body. destruct (Z.ltb_spec ofs total); [lia|reflexivity].
  - cbn [receive_loop]. destruct (Z.ltb_spec ofs total).
    + destruct (receive_step m dm total (sizes, ofs, c)) as [[[sizes' ofs'] c']|e|] eqn:E; cbn [bind].
      * destruct (receive_step_moves _ _ _ _ _ _ _ _ _ U F E) as [M F']. eapply runs_more; [|apply IH; [exact F'|lia]].
        unfold receive_body. destruct (Z.ltb_spec ofs total); [|lia]. rewrite E. reflexivity.
      * apply runs_err. unfold receive_body. destruct (Z.ltb_spec ofs total); [|lia]. rewrite E. reflexivity.
      * apply runs_panic. unfold receive_body. destruct (Z.ltb_spec ofs total); [|lia]. rewrite E. reflexivity.
    + apply runs_done. unfold receive_body. destruct (Z.ltb_spec ofs total); [lia|reflexivity].
Qed.

(** ** Searching loops *)
Lemma code_length_runs m max_codes k : zlen max_codes <= 17 -> forall n len, 1 <= len -> Z.of_nat n = zlen max_codes - (len - 1) ->
  runs (code_length_body m max_codes k) len (code_length k (skipn (Z.to_nat (len - 1)) max_codes) len).
Proof.
  intros H17. induction n as [|n IH]; intros len H1 E.
  - rewrite skipn_all2 by (unfold zlen in E; lia). cbn [code_length]. apply runs_panic. unfold code_length_body. rewrite ua_ok by lia. cbn [bind].
    rewrite idx_panic by lia. reflexivity.
  - destruct (nth_error max_codes (Z.to_nat (len - 1))) as [mc|] eqn:N; [|apply nth_error_None in N; unfold zlen in E; lia].
    assert (S : skipn (Z.to_nat (len - 1)) max_codes = mc :: skipn (Z.to_nat (len + 1 - 1)) max_codes).
    { apply nth_error_split in N as (l1 & l2 & -> & L). rewrite <- L, skipn_app, Nat.sub_diag, skipn_all. 
      replace (Z.to_nat (len + 1 - 1)) with (Datatypes.S (length l1)) by lia. rewrite skipn_app, (skipn_all2 l1) by lia.
      replace (Datatypes.S (length l1) - length l1)%nat with 1%nat by lia. reflexivity. }
    assert (I : idx max_codes (len - 1) = Ok mc). { unfold idx. destruct (Z.leb_spec 0 (len - 1)); [|lia]. rewrite N. reflexivity. }
    rewrite S. cbn [code_length]. destruct (k <=? mc) eqn:K.
    + apply runs_done. unfold code_length_body. rewrite ua_ok by lia. cbn [bind]. rewrite I. cbn [bind]. rewrite K. reflexivity.
    + eapply runs_more; [|apply IH; lia]. unfold code_length_body. rewrite ua_ok by lia. cbn [bind]. rewrite I. cbn [bind]. rewrite K.
      rewrite ua_ok by lia. reflexivity.
Qed.
Lemma code_length_loop m max_codes k start : zlen max_codes <= 17 -> 0 <= start < 2 ^ 32 ->
  runs (code_length_body m max_codes k) start
    (let* from := ua m 32 (start - 1) in let* l := slice_from max_codes from in code_length k l start).
Proof.
  intros H17 Hs. destruct (ua m 32 (start - 1)) as [a|e|] eqn:E; cbn [bind].
  - unfold slice_from. assert (A : 0 <= a /\ (a = start - 1 \/ a = 2 ^ 32 - 1)).
    { unfold ua in E. destruct (Z.leb_spec 0 (start - 1)); [destruct (Z.ltb_spec (start - 1) (2 ^ 32)); [cbn [andb] in E; inversion E; lia|lia]|].
      cbn [andb] in E. destruct m; [discriminate|]. assert (start = 0) as -> by lia. assert (a = (0 - 1) mod 2 ^ 32) as -> by congruence. change ((0 - 1) mod 2 ^ 32) with (2 ^ 32 - 1). lia. }
    destruct (Z.leb_spec 0 a); [|lia]. destruct (Z.leb_spec a (zlen max_codes)); cbn [andb bind].
    + assert (a = start - 1) as -> by lia. apply code_length_runs with (Z.to_nat (zlen max_codes - (start - 1))); lia.
    + apply runs_panic. unfold code_length_body. rewrite E. cbn [bind]. rewrite idx_panic by lia. reflexivity.
  - unfold ua in E. destruct ((0 <=? start - 1) && (start - 1 <? 2 ^ 32)), m; discriminate.
  - apply runs_panic. unfold code_length_body. rewrite E. reflexivity.
Qed.

Lemma zrange_snoc lo hi : lo <= hi -> zrange lo (hi + 1) = zrange lo hi ++ [hi].
Proof.
  intros H. unfold zrange. replace (Z.to_nat (hi + 1 - lo)) with (S (Z.to_nat (hi - lo))) by lia.
  assert (G : forall n lo, zseq lo (S n) = zseq lo n ++ [lo + Z.of_nat n]).
  { induction n as [|n IH]; intros l; [cbn; f_equal; lia|]. change (zseq l (S (S n))) with (l :: zseq (l + 1) (S n)). rewrite IH. cbn [app]. 
    change (zseq l (S n)) with (l :: zseq (l + 1) n). cbn [app]. do 3 f_equal. lia. }
  rewrite G. do 2 f_equal. lia.
Qed.
Lemma last_used_runs m num_codes : forall n, Z.of_nat n < 2 ^ 32 ->
  runs (last_used_body m num_codes) (Z.of_nat n)
    (let* found := first_with (fun i => let* n := idx num_codes i in Ok (negb (n =? 0))) (rev (zrange 1 (Z.of_nat n + 1))) in
     Ok match found with Some i => i | None => 0 end).
Proof.
  induction n as [|n IH]; intros H.
  - apply runs_done. reflexivity.
  - rewrite zrange_snoc, rev_app_distr by lia. cbn [rev app first_with].
    destruct (idx num_codes (Z.of_nat (S n))) as [x|e|] eqn:E; cbn [bind].
    + destruct (negb (x =? 0)) eqn:B; cbn [bind].
      * apply runs_done. unfold last_used_body. destruct (Z.leb_spec 1 (Z.of_nat (S n))); [|lia]. rewrite E. cbn [bind]. rewrite B. reflexivity.
      * replace (zrange 1 (Z.of_nat (S n))) with (zrange 1 (Z.of_nat n + 1)) by (f_equal; lia). eapply runs_more; [|apply IH; lia].
        unfold last_used_body. destruct (Z.leb_spec 1 (Z.of_nat (S n))); [|lia]. rewrite E. cbn [bind]. rewrite B. rewrite ua_ok by lia. cbn [bind]. do 2 f_equal. lia.
    + apply runs_err. unfold last_used_body. destruct (Z.leb_spec 1 (Z.of_nat (S n))); [|lia]. rewrite E. reflexivity.
    + apply runs_panic. unfold last_used_body. destruct (Z.leb_spec 1 (Z.of_nat (S n))); [|lia]. rewrite E. reflexivity.
Qed.

Lemma total_bits_runs m : forall n v l, 0 <= v < 2 ^ Z.of_nat n -> 0 <= l -> l + Z.of_nat n < 2 ^ 32 ->
  runs (total_bits_body m) (v, l) (Ok (l + total_bits v)).
Proof.
  induction n as [|n IH]; intros v l Hv Hl Hn.
  - change (2 ^ Z.of_nat 0) with 1 in Hv. assert (v = 0) as -> by lia. rewrite Z.add_0_r. apply runs_done. reflexivity.
  - destruct (Z.eq_dec v 0) as [->|Nz]; [rewrite Z.add_0_r; apply runs_done; reflexivity|].
    apply runs_more with (Z.shiftr v 1, l + 1).
    + unfold total_bits_body. destruct (Z.ltb_spec 0 v); [|lia]. rewrite ua_ok by lia. reflexivity.
    + assert (P : 2 ^ Z.of_nat (S n) = 2 * 2 ^ Z.of_nat n) by (rewrite Nat2Z.inj_succ, Z.pow_succ_r by lia; reflexivity).
      assert (D : 0 <= Z.shiftr v 1 < 2 ^ Z.of_nat n).
      { rewrite Z.shiftr_div_pow2 by lia. change (2 ^ 1) with 2. split; [apply Z.div_pos; lia|apply Z.div_lt_upper_bound; lia]. }
      replace (l + total_bits v) with (l + 1 + total_bits (Z.shiftr v 1)); [apply IH; [exact D|lia|lia]|].
      unfold total_bits. destruct (Z.ltb_spec 0 v); [|lia]. destruct (Z.eq_dec v 1) as [->|]; [cbn; lia|].
      rewrite Z.shiftr_div_pow2 by lia. change (2 ^ 1) with 2. assert (0 < v / 2) by (apply Z.div_str_pos; lia).
      destruct (Z.ltb_spec 0 (v / 2)); [|lia]. assert (Q : Z.log2 (v / 2) = Z.log2 v - 1) by (change (v / 2) with (v / 2 ^ 1); rewrite <- (Z.shiftr_div_pow2 v 1), Z.log2_shiftr by lia; pose proof (Z.log2_pos v ltac:(lia)); lia). lia.
Qed.

(** ** Counting loops *)
Lemma count_runs {S} m k num (f : Z -> S -> res S) : 1 <= k -> k * num < 2 ^ 64 -> forall n j s, 0 <= j -> j + Z.of_nat n = num ->
  runs (count_body m k (k * num) f) (k * j, s) (for_range j num (fun i => f (k * i)) s).
Proof.
  intros Hk Hb. induction n as [|n IH]; intros j s Hj E.
  - assert (j = num) as -> by lia. unfold for_range, zrange. rewrite Z.sub_diag. cbn [Z.to_nat zseq for_list]. apply runs_done. unfold count_body.
    rewrite Z.ltb_irrefl. reflexivity.
  - assert (R : zrange j num = j :: zrange (j + 1) num).
    { unfold zrange. replace (Z.to_nat (num - j)) with (Datatypes.S (Z.to_nat (num - (j + 1)))) by lia. reflexivity. }
    assert (L : k * j < k * num) by (apply Z.mul_lt_mono_pos_l; lia).
    assert (L2 : k * (j + 1) <= k * num) by (apply Z.mul_le_mono_nonneg_l; lia).
    assert (L0 : 0 <= k * j) by (apply Z.mul_nonneg_nonneg; lia).
    rewrite Z.mul_add_distr_l, Z.mul_1_r in L2. unfold for_range. rewrite R. cbn [for_list].
    destruct (f (k * j) s) as [s'|e|] eqn:F; cbn [bind].
    + apply runs_more with (k * (j + 1), s'); [|apply IH; lia]. unfold count_body. destruct (Z.ltb_spec (k * j) (k * num)); [|lia]. rewrite F. cbn [bind].
      rewrite ua_ok by lia. cbn [bind]. rewrite Z.mul_add_distr_l, Z.mul_1_r. reflexivity.
    + apply runs_err. unfold count_body. destruct (Z.ltb_spec (k * j) (k * num)); [|lia]. rewrite F. reflexivity.
    + apply runs_panic. unfold count_body. destruct (Z.ltb_spec (k * j) (k * num)); [|lia]. rewrite F. reflexivity.
Qed.

(** ** The PVRTC loop beyond its range *)
Lemma morton_stuck x y d : 0 < d -> forall st o, runs (morton_body Wrapping x y d) st o -> snd st <> 0.
Proof.
  intros Hd st o H. induction H as [[[of sh] mk] r E|[[of sh] mk] e E|[[of sh] mk] E|[[of sh] mk] [[of' sh'] mk'] o E H IH]; cbn [snd] in *; intros ->;
    unfold morton_body in E; destruct (Z.ltb_spec 0 d); try lia.
  - step E. step E. step E. step E. discriminate.
  - unfold ushl, sh_amt, ua in E. destruct ((0 <=? sh) && (sh <? 64)), ((0 <=? sh + 1) && (sh + 1 <? 2 ^ 64)); cbn [bind andb Z.leb Z.ltb Z.compare Pos.compare Pos.compare_cont] in E; discriminate.
  - unfold ushl, sh_amt, ua in E. destruct ((0 <=? sh) && (sh <? 64)), ((0 <=? sh + 1) && (sh + 1 <? 2 ^ 64)); cbn [bind andb Z.leb Z.ltb Z.compare Pos.compare Pos.compare_cont] in E; discriminate.
  - step E. step E. step E. change (ushl Wrapping 64 0 1) with (@Ok Z 0) in E2. step E. inversion E2; subst. inversion E; subst. apply IH. reflexivity.
Qed.
Lemma morton_hangs x y d : 2 ^ 63 < d -> forall n shift offset o, 0 <= shift -> shift + Z.of_nat n = 64 ->
  ~ runs (morton_body Wrapping x y d) (offset, shift, 2 ^ shift mod 2 ^ 64) o.
Proof.
  intros Hd. induction n as [|n IH]; intros shift offset o Hs E H.
  - assert (shift = 64) as -> by lia. apply morton_stuck in H; [|lia]. apply H. reflexivity.
  - assert (M : 2 ^ shift mod 2 ^ 64 = 2 ^ shift).
    { apply Z.mod_small. split; [apply Z.pow_nonneg; lia|]. apply Z.pow_lt_mono_r; lia. }
    assert (L : 2 ^ shift <= 2 ^ 63) by (apply Z.pow_le_mono_r; lia).
    assert (E1 : ushl Wrapping 64 (2 ^ shift) 1 = Ok (2 ^ (shift + 1) mod 2 ^ 64)).
    { unfold ushl, sh_amt. cbn [andb Z.leb Z.ltb Z.compare Pos.compare Pos.compare_cont bind].
      rewrite Z.shiftl_mul_pow2 by lia. rewrite <- Z.pow_add_r by lia. reflexivity. }
    assert (E2 : ua Wrapping 64 (shift + 1) = Ok (shift + 1)) by (apply ua_ok; lia).
    assert (B : exists off', morton_body Wrapping x y d (offset, shift, 2 ^ shift mod 2 ^ 64) = Ok (inl (off', shift + 1, 2 ^ (shift + 1) mod 2 ^ 64))).
    { unfold morton_body. rewrite M. destruct (Z.ltb_spec (2 ^ shift) d); [|lia].
      destruct (ushl Wrapping 64 (Z.land x (2 ^ shift)) 1) as [a|e|] eqn:Ea; cbn [bind].
      2,3: unfold ushl, sh_amt in Ea; cbn in Ea; discriminate.
      destruct (ushl Wrapping 64 (Z.lor (Z.land y (2 ^ shift)) a) shift) as [b|e|] eqn:Eb; cbn [bind].
      2,3: unfold ushl, sh_amt in Eb; destruct ((0 <=? shift) && (shift <? 64)); cbn [bind] in Eb; discriminate.
      rewrite E1. cbn [bind]. rewrite E2. cbn [bind]. eauto. }
    destruct B as [off' B]. inversion H as [? ? Q|? ? Q|? Q|? ? ? Q R]; subst; rewrite B in Q; inversion Q; subst.
    eapply IH; [| |exact R]; lia.
Qed.

(** ** The starting length of a model *)
Lemma first_with_in p : forall l j, first_with p l = Ok (Some j) -> In j l.
Proof.
  induction l as [|a l IH]; intros j E; cbn [first_with] in E; [discriminate|]. step E. destruct a0; [inversion E; left; reflexivity|right; auto].
Qed.
Lemma length_loop_max m nc s : length_loop m nc = Ok s -> l_max_size s <= 16.
Proof.
  unfold length_loop. apply (for_range_ok_inv (fun _ s => l_max_size s <= 16)); [lia|cbn; lia|].
  intros i s0 s1 Hi I E. unfold length_step in E. step E. step E. step E. inversion E; subst. cbn [l_max_size].
  destruct (a =? 0).
  - step E1. inversion E1; subst. cbn [l_max_size]. assumption.
  - do 12 step E1. inversion E1; subst. cbn [l_max_size]. lia.
Qed.
Lemma usable_start m md : usable m md -> zlen (t_max_codes (m_tables md)) = 17 /\ 0 <= t_decode_start_code_size (m_tables md) < 256.
Proof.
  intros [->|[sizes P]]; [split; [reflexivity|cbn; lia]|]. split; [apply (prepare_facts _ _ _ P)|].
  unfold prepare_decoder_tables in P. cbv zeta in P. destruct (negb ((1 <=? zlen sizes) && (zlen sizes <=? MAX_SUPPORTED_SYMS))); [discriminate|].
  step P. inversion P; subst. cbn [m_tables]. unfold tables_init in E.
  destruct (Z.ltb_spec MAX_TABLE_BITS (compute_decoder_table_bits (zlen sizes))) as [|TB]; [rewrite orb_true_r in E; discriminate|].
  destruct (zlen sizes =? 0); [discriminate|]. cbn [orb] in E. change MAX_TABLE_BITS with 11 in TB.
  assert (TB0 : 0 <= compute_decoder_table_bits (zlen sizes)).
  { unfold compute_decoder_table_bits, ceil_log2i. cbv zeta. pose proof (Z.log2_nonneg (zlen sizes)). change MAX_TABLE_BITS with 11. destruct (16 <? zlen sizes); [|lia].
    destruct (negb (Z.log2 (zlen sizes) =? 32) && (Z.shiftl 1 (Z.log2 (zlen sizes)) <? zlen sizes)); lia. }
  revert E TB TB0. generalize (compute_decoder_table_bits (zlen sizes)). intros tb0 E TB TB0. cbv zeta in E.
  step E. step E. step E. destruct a2 as [p sorted]. step E. step E. step E. destruct a4 as [tmc start]. step E. step E. inversion E; subst.
  cbn [t_decode_start_code_size]. apply length_loop_max in E1. unfold start_code in E5.
  assert (U : 0 <= u8 (l_min_size a1) < 256) by (unfold u8; change (2 ^ 8) with 256; apply Z.mod_pos_bound; lia).
  revert E5. set (tb := if tb0 <=? u8 (l_min_size a1) then 0 else tb0). assert (0 <= tb <= 11) by (unfold tb; destruct (tb0 <=? u8 (l_min_size a1)); lia).
  destruct (tb =? 0); [intros E5; inversion E5; subst; exact U|]. intros E5.
  apply bind_ok_inv in E5 as (fo & Efo & E5). destruct fo; [|inversion E5; subst; exact U].
  apply bind_ok_inv in E5 as (t & Et & E5). apply bind_ok_inv in E5 as (la & Ela & E5).
  destruct la; inversion E5; subst; [|lia]. apply first_with_in in Ela. apply in_zrange in Ela. lia.
Qed.
