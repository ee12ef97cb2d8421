(** * A checking build that does not panic agrees with a wrapping one *)
From Verif Require Import Base BaseLemmas ModelColor ModelBits ModelF16 ModelBc ModelBptc ModelBc6 ModelBc7 ModelEtc ModelPvrtc ModelAstc ModelCrn ModelCrunch ModelUnity ModelPy.

Definition agrees {A} (c w : res A) : Prop := c = Panic \/ c = w.

Lemma ag_refl {A} (r : res A) : agrees r r.
Proof. right. reflexivity. Qed.
Lemma ag_panic {A} (r : res A) : agrees Panic r.
Proof. left. reflexivity. Qed.
Lemma ag_bind {A B} (x y : res A) (f g : A -> res B) : agrees x y -> (forall a, agrees (f a) (g a)) -> agrees (bind x f) (bind y g).
Proof. intros [->| ->] H; [apply ag_panic|]. destruct y; cbn [bind]; [apply H|apply ag_refl|apply ag_refl]. Qed.
Lemma ag_ua w x : agrees (ua Checked w x) (ua Wrapping w x).
Proof. unfold ua. destruct (_ && _); [apply ag_refl|apply ag_panic]. Qed.
Lemma ag_ia w x : agrees (ia Checked w x) (ia Wrapping w x).
Proof. unfold ia. destruct (_ && _); [apply ag_refl|apply ag_panic]. Qed.
Lemma ag_sh w x : agrees (sh_amt Checked w x) (sh_amt Wrapping w x).
Proof. unfold sh_amt. destruct (_ && _); [apply ag_refl|apply ag_panic]. Qed.
Lemma ag_ushl w x s : agrees (ushl Checked w x s) (ushl Wrapping w x s).
Proof. apply ag_bind; [apply ag_sh|intros; apply ag_refl]. Qed.
Lemma ag_ushr w x s : agrees (ushr Checked w x s) (ushr Wrapping w x s).
Proof. apply ag_bind; [apply ag_sh|intros; apply ag_refl]. Qed.
Lemma ag_ishl w x s : agrees (ishl Checked w x s) (ishl Wrapping w x s).
Proof. apply ag_bind; [apply ag_sh|intros; apply ag_refl]. Qed.
Lemma ag_for_list {A S} (l : list A) (f g : A -> S -> res S) : (forall a s, agrees (f a s) (g a s)) -> forall s, agrees (for_list l f s) (for_list l g s).
Proof. intros H. induction l; intros s; cbn [for_list]; [apply ag_refl|]. apply ag_bind; auto. Qed.
Lemma ag_for_range {S} lo hi (f g : Z -> S -> res S) s : (forall a s, agrees (f a s) (g a s)) -> agrees (for_range lo hi f s) (for_range lo hi g s).
Proof. intros H. apply ag_for_list; auto. Qed.
Lemma ag_first_with p q l : (forall a, agrees (p a) (q a)) -> agrees (first_with p l) (first_with q l).
Proof. intros H. induction l; cbn [first_with]; [apply ag_refl|]. apply ag_bind; [apply H|]. intros []; [apply ag_refl|exact IHl]. Qed.

Lemma ag_or_err {A} msg (x y : res A) : agrees x y -> agrees (or_err msg x) (or_err msg y).
Proof. intros [->| ->]; [apply ag_panic|apply ag_refl]. Qed.
Lemma ag_with_level x y image k k' : agrees x y -> (forall f d, agrees (k f d) (k' f d)) -> agrees (with_level x image k) (with_level y image k').
Proof. intros [->| ->] H; [apply ag_panic|]. destruct y as [[f d]| |]; cbn [with_level]; [apply H|apply ag_refl|apply ag_panic]. Qed.

Create HintDb ag discriminated.
#[export] Hint Constants Opaque : ag.
#[export] Hint Variables Opaque : ag.
#[export] Hint Resolve ag_panic ag_ua ag_ia ag_sh ag_ushl ag_ushr ag_ishl : ag.
Ltac ag_head t := match t with ?f _ => ag_head f | _ => t end.
Ltac ag_step :=
  match goal with
  | |- forall _, _ => intro
  | |- agrees ?a ?a => apply ag_refl
  | |- agrees (bind _ _) (bind _ _) => apply ag_bind
  | |- agrees (for_range _ _ _ _) _ => apply ag_for_range
  | |- agrees (for_list _ _ _) _ => apply ag_for_list
  | |- agrees (first_with _ _) _ => apply ag_first_with
  | |- agrees (or_err _ _) _ => apply ag_or_err
  | |- agrees (with_level _ _ _) _ => apply ag_with_level
  | |- agrees _ _ => solve [auto with ag nocore]
  | |- agrees (let x := _ in _) _ => cbv zeta
  | |- agrees (match ?x with _ => _ end) _ => destruct x
  | |- agrees ?t _ => let h := ag_head t in unfold h
  end.
Ltac ag_tac := repeat ag_step.

(** ** Every function *)
Lemma ag_copy_block_buffer (x0 : Z) (x1 : Z) (x2 : Z) (x3 : Z) (x4 : Z) (x5 : Z) (x6 : list Z) (x7 : list Z) : agrees (@copy_block_buffer Checked  x0 x1 x2 x3 x4 x5 x6 x7) (@copy_block_buffer Wrapping  x0 x1 x2 x3 x4 x5 x6 x7).
Proof. unfold copy_block_buffer. ag_tac. Qed.
#[export] Hint Resolve ag_copy_block_buffer : ag.
Lemma ag_block_decoder (x0 : Z) (x1 : Z) (x2 : Z) (x3 x3' : (list Z -> list Z -> res (list Z))) (x4 : list Z) (x5 : Z) (x6 : Z) (x7 : list Z) : (forall a0 a1, agrees (x3 a0 a1) (x3' a0 a1)) -> agrees (@block_decoder Checked  x0 x1 x2 x3 x4 x5 x6 x7) (@block_decoder Wrapping  x0 x1 x2 x3' x4 x5 x6 x7).
Proof. intros. unfold block_decoder. ag_tac. Qed.
#[export] Hint Resolve ag_block_decoder : ag.
Lemma ag_getbits_raw (x0 : list Z) (x1 : Z) (x2 : Z) (x3 : list Z) : agrees (@getbits_raw Checked  x0 x1 x2 x3) (@getbits_raw Wrapping  x0 x1 x2 x3).
Proof. unfold getbits_raw. ag_tac. Qed.
#[export] Hint Resolve ag_getbits_raw : ag.
Lemma ag_getbits (x0 : list Z) (x1 : Z) (x2 : Z) : agrees (@getbits Checked  x0 x1 x2) (@getbits Wrapping  x0 x1 x2).
Proof. unfold getbits. ag_tac. Qed.
#[export] Hint Resolve ag_getbits : ag.
Lemma ag_getbits64 (x0 : list Z) (x1 : Z) (x2 : Z) : agrees (@getbits64 Checked  x0 x1 x2) (@getbits64 Wrapping  x0 x1 x2).
Proof. unfold getbits64. ag_tac. Qed.
#[export] Hint Resolve ag_getbits64 : ag.
Lemma ag_peek (x0 : list Z) (x1 : Z) (x2 : Z) (x3 : Z) : agrees (@peek Checked  x0 x1 x2 x3) (@peek Wrapping  x0 x1 x2 x3).
Proof. unfold peek. ag_tac. Qed.
#[export] Hint Resolve ag_peek : ag.
Lemma ag_read (x0 : list Z) (x1 : Z) (x2 : Z) : agrees (@read Checked  x0 x1 x2) (@read Wrapping  x0 x1 x2).
Proof. unfold read. ag_tac. Qed.
#[export] Hint Resolve ag_read : ag.
Lemma ag_mix21 (x0 : Z) (x1 : Z) : agrees (@mix21 Checked  x0 x1) (@mix21 Wrapping  x0 x1).
Proof. unfold mix21. ag_tac. Qed.
#[export] Hint Resolve ag_mix21 : ag.
Lemma ag_mix12 (x0 : Z) (x1 : Z) : agrees (@mix12 Checked  x0 x1) (@mix12 Wrapping  x0 x1).
Proof. unfold mix12. ag_tac. Qed.
#[export] Hint Resolve ag_mix12 : ag.
Lemma ag_mix11 (x0 : Z) (x1 : Z) : agrees (@mix11 Checked  x0 x1) (@mix11 Wrapping  x0 x1).
Proof. unfold mix11. ag_tac. Qed.
#[export] Hint Resolve ag_mix11 : ag.
Lemma ag_decode_bc1_block_gen (x0 : list Z) (x1 : list Z) (x2 : bool) : agrees (@decode_bc1_block_gen Checked  x0 x1 x2) (@decode_bc1_block_gen Wrapping  x0 x1 x2).
Proof. unfold decode_bc1_block_gen. ag_tac. Qed.
#[export] Hint Resolve ag_decode_bc1_block_gen : ag.
Lemma ag_decode_bc1_block (x0 : list Z) (x1 : list Z) : agrees (@decode_bc1_block Checked  x0 x1) (@decode_bc1_block Wrapping  x0 x1).
Proof. unfold decode_bc1_block. ag_tac. Qed.
#[export] Hint Resolve ag_decode_bc1_block : ag.
Lemma ag_decode_bc1a_block (x0 : list Z) (x1 : list Z) : agrees (@decode_bc1a_block Checked  x0 x1) (@decode_bc1a_block Wrapping  x0 x1).
Proof. unfold decode_bc1a_block. ag_tac. Qed.
#[export] Hint Resolve ag_decode_bc1a_block : ag.
Lemma ag_decode_bc2_alpha (x0 : list Z) (x1 : list Z) (x2 : Z) : agrees (@decode_bc2_alpha Checked  x0 x1 x2) (@decode_bc2_alpha Wrapping  x0 x1 x2).
Proof. unfold decode_bc2_alpha. ag_tac. Qed.
#[export] Hint Resolve ag_decode_bc2_alpha : ag.
Lemma ag_decode_bc2_block (x0 : list Z) (x1 : list Z) : agrees (@decode_bc2_block Checked  x0 x1) (@decode_bc2_block Wrapping  x0 x1).
Proof. unfold decode_bc2_block. ag_tac. Qed.
#[export] Hint Resolve ag_decode_bc2_block : ag.
Lemma ag_wmix (x0 : Z) (x1 : Z) (x2 : Z) (x3 : Z) (x4 : Z) : agrees (@wmix Checked  x0 x1 x2 x3 x4) (@wmix Wrapping  x0 x1 x2 x3 x4).
Proof. unfold wmix. ag_tac. Qed.
#[export] Hint Resolve ag_wmix : ag.
Lemma ag_bc3_table (x0 : Z) (x1 : Z) : agrees (@bc3_table Checked  x0 x1) (@bc3_table Wrapping  x0 x1).
Proof. unfold bc3_table. ag_tac. Qed.
#[export] Hint Resolve ag_bc3_table : ag.
Lemma ag_decode_bc3_alpha (x0 : list Z) (x1 : list Z) (x2 : Z) : agrees (@decode_bc3_alpha Checked  x0 x1 x2) (@decode_bc3_alpha Wrapping  x0 x1 x2).
Proof. unfold decode_bc3_alpha. ag_tac. Qed.
#[export] Hint Resolve ag_decode_bc3_alpha : ag.
Lemma ag_decode_bc3_block (x0 : list Z) (x1 : list Z) : agrees (@decode_bc3_block Checked  x0 x1) (@decode_bc3_block Wrapping  x0 x1).
Proof. unfold decode_bc3_block. ag_tac. Qed.
#[export] Hint Resolve ag_decode_bc3_block : ag.
Lemma ag_decode_bc4_block (x0 : list Z) (x1 : list Z) : agrees (@decode_bc4_block Checked  x0 x1) (@decode_bc4_block Wrapping  x0 x1).
Proof. unfold decode_bc4_block. ag_tac. Qed.
#[export] Hint Resolve ag_decode_bc4_block : ag.
Lemma ag_decode_bc5_block (x0 : list Z) (x1 : list Z) : agrees (@decode_bc5_block Checked  x0 x1) (@decode_bc5_block Wrapping  x0 x1).
Proof. unfold decode_bc5_block. ag_tac. Qed.
#[export] Hint Resolve ag_decode_bc5_block : ag.
Lemma ag_atc_expand (x0 : Z) (x1 : Z) : agrees (@atc_expand Checked  x0 x1) (@atc_expand Wrapping  x0 x1).
Proof. unfold atc_expand. ag_tac. Qed.
#[export] Hint Resolve ag_atc_expand : ag.
Lemma ag_atc_interop (x0 : Z) (x1 : Z) : agrees (@atc_interop Checked  x0 x1) (@atc_interop Wrapping  x0 x1).
Proof. unfold atc_interop. ag_tac. Qed.
#[export] Hint Resolve ag_atc_interop : ag.
Lemma ag_decode_atc_rgb4_block (x0 : list Z) (x1 : list Z) : agrees (@decode_atc_rgb4_block Checked  x0 x1) (@decode_atc_rgb4_block Wrapping  x0 x1).
Proof. unfold decode_atc_rgb4_block. ag_tac. Qed.
#[export] Hint Resolve ag_decode_atc_rgb4_block : ag.
Lemma ag_decode_atc_rgba8_block (x0 : list Z) (x1 : list Z) : agrees (@decode_atc_rgba8_block Checked  x0 x1) (@decode_atc_rgba8_block Wrapping  x0 x1).
Proof. unfold decode_atc_rgba8_block. ag_tac. Qed.
#[export] Hint Resolve ag_decode_atc_rgba8_block : ag.
Lemma ag_decode_bc1 (x0 : list Z) (x1 : Z) (x2 : Z) (x3 : list Z) : agrees (@decode_bc1 Checked  x0 x1 x2 x3) (@decode_bc1 Wrapping  x0 x1 x2 x3).
Proof. unfold decode_bc1. ag_tac. Qed.
#[export] Hint Resolve ag_decode_bc1 : ag.
Lemma ag_decode_bc1a (x0 : list Z) (x1 : Z) (x2 : Z) (x3 : list Z) : agrees (@decode_bc1a Checked  x0 x1 x2 x3) (@decode_bc1a Wrapping  x0 x1 x2 x3).
Proof. unfold decode_bc1a. ag_tac. Qed.
#[export] Hint Resolve ag_decode_bc1a : ag.
Lemma ag_decode_bc2 (x0 : list Z) (x1 : Z) (x2 : Z) (x3 : list Z) : agrees (@decode_bc2 Checked  x0 x1 x2 x3) (@decode_bc2 Wrapping  x0 x1 x2 x3).
Proof. unfold decode_bc2. ag_tac. Qed.
#[export] Hint Resolve ag_decode_bc2 : ag.
Lemma ag_decode_bc3 (x0 : list Z) (x1 : Z) (x2 : Z) (x3 : list Z) : agrees (@decode_bc3 Checked  x0 x1 x2 x3) (@decode_bc3 Wrapping  x0 x1 x2 x3).
Proof. unfold decode_bc3. ag_tac. Qed.
#[export] Hint Resolve ag_decode_bc3 : ag.
Lemma ag_decode_bc4 (x0 : list Z) (x1 : Z) (x2 : Z) (x3 : list Z) : agrees (@decode_bc4 Checked  x0 x1 x2 x3) (@decode_bc4 Wrapping  x0 x1 x2 x3).
Proof. unfold decode_bc4. ag_tac. Qed.
#[export] Hint Resolve ag_decode_bc4 : ag.
Lemma ag_decode_bc5 (x0 : list Z) (x1 : Z) (x2 : Z) (x3 : list Z) : agrees (@decode_bc5 Checked  x0 x1 x2 x3) (@decode_bc5 Wrapping  x0 x1 x2 x3).
Proof. unfold decode_bc5. ag_tac. Qed.
#[export] Hint Resolve ag_decode_bc5 : ag.
Lemma ag_decode_atc_rgb4 (x0 : list Z) (x1 : Z) (x2 : Z) (x3 : list Z) : agrees (@decode_atc_rgb4 Checked  x0 x1 x2 x3) (@decode_atc_rgb4 Wrapping  x0 x1 x2 x3).
Proof. unfold decode_atc_rgb4. ag_tac. Qed.
#[export] Hint Resolve ag_decode_atc_rgb4 : ag.
Lemma ag_decode_atc_rgba8 (x0 : list Z) (x1 : Z) (x2 : Z) (x3 : list Z) : agrees (@decode_atc_rgba8 Checked  x0 x1 x2 x3) (@decode_atc_rgba8 Wrapping  x0 x1 x2 x3).
Proof. unfold decode_atc_rgba8. ag_tac. Qed.
#[export] Hint Resolve ag_decode_atc_rgba8 : ag.
Lemma ag_unquantize (x0 : Z) (x1 : bool) (x2 : Z) : agrees (@unquantize Checked  x0 x1 x2) (@unquantize Wrapping  x0 x1 x2).
Proof. unfold unquantize. ag_tac. Qed.
#[export] Hint Resolve ag_unquantize : ag.
Lemma ag_finish_unquantize (x0 : Z) (x1 : bool) : agrees (@finish_unquantize Checked  x0 x1) (@finish_unquantize Wrapping  x0 x1).
Proof. unfold finish_unquantize. ag_tac. Qed.
#[export] Hint Resolve ag_finish_unquantize : ag.
Lemma ag_sign_extend (x0 : Z) (x1 : Z) : agrees (@sign_extend Checked  x0 x1) (@sign_extend Wrapping  x0 x1).
Proof. unfold sign_extend. ag_tac. Qed.
#[export] Hint Resolve ag_sign_extend : ag.
Lemma ag_bc6_read_one (x0 : list Z) (x1 : Z * Z * Z * Z) (x2 : list (list Z) * Z) : agrees (@bc6_read_one Checked  x0 x1 x2) (@bc6_read_one Wrapping  x0 x1 x2).
Proof. unfold bc6_read_one. ag_tac. Qed.
#[export] Hint Resolve ag_bc6_read_one : ag.
Lemma ag_bc6_sign_extend (x0 : list Z) (x1 : Z) (x2 : list (list Z)) : agrees (@bc6_sign_extend Checked  x0 x1 x2) (@bc6_sign_extend Wrapping  x0 x1 x2).
Proof. unfold bc6_sign_extend. ag_tac. Qed.
#[export] Hint Resolve ag_bc6_sign_extend : ag.
Lemma ag_bc6_delta (x0 : Bc6hModeInfo) (x1 : bool) (x2 : Z) (x3 : list (list Z)) : agrees (@bc6_delta Checked  x0 x1 x2 x3) (@bc6_delta Wrapping  x0 x1 x2 x3).
Proof. unfold bc6_delta. ag_tac. Qed.
#[export] Hint Resolve ag_bc6_delta : ag.
Lemma ag_bc6_mix (x0 : list Z) (x1 : Z) (x2 : Z) (x3 : Z) : agrees (@bc6_mix Checked  x0 x1 x2 x3) (@bc6_mix Wrapping  x0 x1 x2 x3).
Proof. unfold bc6_mix. ag_tac. Qed.
#[export] Hint Resolve ag_bc6_mix : ag.
Lemma ag_bc6_channel (x0 : list (list Z)) (x1 : Z) (x2 : Z) (x3 : Z) (x4 : Z) (x5 : bool) : agrees (@bc6_channel Checked  x0 x1 x2 x3 x4 x5) (@bc6_channel Wrapping  x0 x1 x2 x3 x4 x5).
Proof. unfold bc6_channel. ag_tac. Qed.
#[export] Hint Resolve ag_bc6_channel : ag.
Lemma ag_bc6_texel_body (x0 : list Z) (x1 : Bc6hModeInfo) (x2 : bool) (x3 : Z) (x4 : Z) (x5 : list (list Z)) (x6 : list Z) (x7 : Z) (x8 : Z) (x9 : list Z * Z) : agrees (@bc6_texel_body Checked  x0 x1 x2 x3 x4 x5 x6 x7 x8 x9) (@bc6_texel_body Wrapping  x0 x1 x2 x3 x4 x5 x6 x7 x8 x9).
Proof. unfold bc6_texel_body. ag_tac. Qed.
#[export] Hint Resolve ag_bc6_texel_body : ag.
Lemma ag_decode_bc6_block (x0 : list Z) (x1 : list Z) (x2 : bool) : agrees (@decode_bc6_block Checked  x0 x1 x2) (@decode_bc6_block Wrapping  x0 x1 x2).
Proof. unfold decode_bc6_block. ag_tac. Qed.
#[export] Hint Resolve ag_decode_bc6_block : ag.
Lemma ag_decode_bc6_block_signed (x0 : list Z) (x1 : list Z) : agrees (@decode_bc6_block_signed Checked  x0 x1) (@decode_bc6_block_signed Wrapping  x0 x1).
Proof. unfold decode_bc6_block_signed. ag_tac. Qed.
#[export] Hint Resolve ag_decode_bc6_block_signed : ag.
Lemma ag_decode_bc6_block_unsigned (x0 : list Z) (x1 : list Z) : agrees (@decode_bc6_block_unsigned Checked  x0 x1) (@decode_bc6_block_unsigned Wrapping  x0 x1).
Proof. unfold decode_bc6_block_unsigned. ag_tac. Qed.
#[export] Hint Resolve ag_decode_bc6_block_unsigned : ag.
Lemma ag_decode_bc6_signed (x0 : list Z) (x1 : Z) (x2 : Z) (x3 : list Z) : agrees (@decode_bc6_signed Checked  x0 x1 x2 x3) (@decode_bc6_signed Wrapping  x0 x1 x2 x3).
Proof. unfold decode_bc6_signed. ag_tac. Qed.
#[export] Hint Resolve ag_decode_bc6_signed : ag.
Lemma ag_decode_bc6_unsigned (x0 : list Z) (x1 : Z) (x2 : Z) (x3 : list Z) : agrees (@decode_bc6_unsigned Checked  x0 x1 x2 x3) (@decode_bc6_unsigned Wrapping  x0 x1 x2 x3).
Proof. unfold decode_bc6_unsigned. ag_tac. Qed.
#[export] Hint Resolve ag_decode_bc6_unsigned : ag.
Lemma ag_decode_bc6 (x0 : list Z) (x1 : Z) (x2 : Z) (x3 : list Z) (x4 : bool) : agrees (@decode_bc6 Checked  x0 x1 x2 x3 x4) (@decode_bc6 Wrapping  x0 x1 x2 x3 x4).
Proof. unfold decode_bc6. ag_tac. Qed.
#[export] Hint Resolve ag_decode_bc6 : ag.
Lemma ag_expand_quantized (x0 : Z) (x1 : Z) : agrees (@expand_quantized Checked  x0 x1) (@expand_quantized Wrapping  x0 x1).
Proof. unfold expand_quantized. ag_tac. Qed.
#[export] Hint Resolve ag_expand_quantized : ag.
Lemma ag_bc7_mode_loop (x0 : nat) (x1 : list Z) (x2 : Z) (x3 : Z) : agrees (@bc7_mode_loop Checked  x0 x1 x2 x3) (@bc7_mode_loop Wrapping  x0 x1 x2 x3).
Proof. revert x1 x2 x3. induction x0; intros; cbn [bc7_mode_loop]; [apply ag_panic|]. repeat (apply IHx0 || ag_step). Qed.
#[export] Hint Resolve ag_bc7_mode_loop : ag.
Lemma ag_bc7_read_channel (x0 : list Z) (x1 : Z) (x2 : Z) (x3 : Z) (x4 : list Z) (x5 : Z) : agrees (@bc7_read_channel Checked  x0 x1 x2 x3 x4 x5) (@bc7_read_channel Wrapping  x0 x1 x2 x3 x4 x5).
Proof. unfold bc7_read_channel. ag_tac. Qed.
#[export] Hint Resolve ag_bc7_read_channel : ag.
Lemma ag_bc7_pbits (x0 : list Z) (x1 : Z) (x2 : Z) (x3 : Z) (x4 : list Z * list Z * list Z * list Z * Z) : agrees (@bc7_pbits Checked  x0 x1 x2 x3 x4) (@bc7_pbits Wrapping  x0 x1 x2 x3 x4).
Proof. unfold bc7_pbits. ag_tac. Qed.
#[export] Hint Resolve ag_bc7_pbits : ag.
Lemma ag_expand_at (x0 : list Z) (x1 : Z) (x2 : Z) : agrees (@expand_at Checked  x0 x1 x2) (@expand_at Wrapping  x0 x1 x2).
Proof. unfold expand_at. ag_tac. Qed.
#[export] Hint Resolve ag_expand_at : ag.
Lemma ag_bc7_expand (x0 : Z) (x1 : Z) (x2 : list Z) : agrees (@bc7_expand Checked  x0 x1 x2) (@bc7_expand Wrapping  x0 x1 x2).
Proof. unfold bc7_expand. ag_tac. Qed.
#[export] Hint Resolve ag_bc7_expand : ag.
Lemma ag_bc7_mix (x0 : list Z) (x1 : Z) (x2 : Z) (x3 : Z) : agrees (@bc7_mix Checked  x0 x1 x2 x3) (@bc7_mix Wrapping  x0 x1 x2 x3).
Proof. unfold bc7_mix. ag_tac. Qed.
#[export] Hint Resolve ag_bc7_mix : ag.
Lemma ag_bc7_subset (x0 : Z) (x1 : Z) (x2 : Z) : agrees (@bc7_subset Checked  x0 x1 x2) (@bc7_subset Wrapping  x0 x1 x2).
Proof. unfold bc7_subset. ag_tac. Qed.
#[export] Hint Resolve ag_bc7_subset : ag.
Lemma ag_bc7_texel_body (x0 : list Z) (x1 : Bc7ModeInfo) (x2 : Z) (x3 : Z) (x4 : Z) (x5 : Z) (x6 : list Z) (x7 : list Z) (x8 : list Z) (x9 : list Z) (x10 : list Z) (x11 : list Z) (x12 : Z) (x13 : Z) (x14 : list Z * (Z * Z)) : agrees (@bc7_texel_body Checked  x0 x1 x2 x3 x4 x5 x6 x7 x8 x9 x10 x11 x12 x13 x14) (@bc7_texel_body Wrapping  x0 x1 x2 x3 x4 x5 x6 x7 x8 x9 x10 x11 x12 x13 x14).
Proof. unfold bc7_texel_body. ag_tac. Qed.
#[export] Hint Resolve ag_bc7_texel_body : ag.
Lemma ag_decode_bc7_block (x0 : list Z) (x1 : list Z) : agrees (@decode_bc7_block Checked  x0 x1) (@decode_bc7_block Wrapping  x0 x1).
Proof. unfold decode_bc7_block. ag_tac. Qed.
#[export] Hint Resolve ag_decode_bc7_block : ag.
Lemma ag_decode_bc7 (x0 : list Z) (x1 : Z) (x2 : Z) (x3 : list Z) : agrees (@decode_bc7 Checked  x0 x1 x2 x3) (@decode_bc7 Wrapping  x0 x1 x2 x3).
Proof. unfold decode_bc7. ag_tac. Qed.
#[export] Hint Resolve ag_decode_bc7 : ag.
Lemma ag_applicate (x0 : Z * Z * Z) (x1 : Z) (x2 : Z) : agrees (@applicate Checked  x0 x1 x2) (@applicate Wrapping  x0 x1 x2).
Proof. unfold applicate. ag_tac. Qed.
#[export] Hint Resolve ag_applicate : ag.
Lemma ag_etc_applicate_color (x0 : Z * Z * Z) (x1 : Z) : agrees (@ModelEtc.applicate_color Checked  x0 x1) (@ModelEtc.applicate_color Wrapping  x0 x1).
Proof. unfold ModelEtc.applicate_color. ag_tac. Qed.
#[export] Hint Resolve ag_etc_applicate_color : ag.
Lemma ag_applicate_color_alpha (x0 : Z * Z * Z) (x1 : Z) (x2 : bool) : agrees (@applicate_color_alpha Checked  x0 x1 x2) (@applicate_color_alpha Wrapping  x0 x1 x2).
Proof. unfold applicate_color_alpha. ag_tac. Qed.
#[export] Hint Resolve ag_applicate_color_alpha : ag.
Lemma ag_etc_sub_loop (x0 : Z * Z * Z) (x1 : Z * Z * Z) (x2 : Z) (x3 : Z) (x4 : list Z) (x5 : list Z) (x6 : Z) (x7 : Z) : agrees (@etc_sub_loop Checked  x0 x1 x2 x3 x4 x5 x6 x7) (@etc_sub_loop Wrapping  x0 x1 x2 x3 x4 x5 x6 x7).
Proof. unfold etc_sub_loop. ag_tac. Qed.
#[export] Hint Resolve ag_etc_sub_loop : ag.
Lemma ag_decode_etc1_block (x0 : list Z) (x1 : list Z) : agrees (@decode_etc1_block Checked  x0 x1) (@decode_etc1_block Wrapping  x0 x1).
Proof. unfold decode_etc1_block. ag_tac. Qed.
#[export] Hint Resolve ag_decode_etc1_block : ag.
Lemma ag_etc2_delta (x0 : Z) : agrees (@etc2_delta Checked  x0) (@etc2_delta Wrapping  x0).
Proof. unfold etc2_delta. ag_tac. Qed.
#[export] Hint Resolve ag_etc2_delta : ag.
Lemma ag_t_set (x0 : Z * Z * Z) (x1 : Z * Z * Z) (x2 : Z) : agrees (@t_set Checked  x0 x1 x2) (@t_set Wrapping  x0 x1 x2).
Proof. unfold t_set. ag_tac. Qed.
#[export] Hint Resolve ag_t_set : ag.
Lemma ag_h_set (x0 : Z * Z * Z) (x1 : Z * Z * Z) (x2 : Z) : agrees (@h_set Checked  x0 x1 x2) (@h_set Wrapping  x0 x1 x2).
Proof. unfold h_set. ag_tac. Qed.
#[export] Hint Resolve ag_h_set : ag.
Lemma ag_etc_set_loop (x0 : bool) (x1 : list Z) (x2 : list Z) (x3 : Z) (x4 : Z) : agrees (@etc_set_loop Checked  x0 x1 x2 x3 x4) (@etc_set_loop Wrapping  x0 x1 x2 x3 x4).
Proof. unfold etc_set_loop. ag_tac. Qed.
#[export] Hint Resolve ag_etc_set_loop : ag.
Lemma ag_planar_chan (x0 : Z) (x1 : Z) (x2 : Z) (x3 : Z) (x4 : Z) : agrees (@planar_chan Checked  x0 x1 x2 x3 x4) (@planar_chan Wrapping  x0 x1 x2 x3 x4).
Proof. unfold planar_chan. ag_tac. Qed.
#[export] Hint Resolve ag_planar_chan : ag.
Lemma ag_planar_loop (x0 : Z * Z * Z) (x1 : Z * Z * Z) (x2 : Z * Z * Z) (x3 : list Z) : agrees (@planar_loop Checked  x0 x1 x2 x3) (@planar_loop Wrapping  x0 x1 x2 x3).
Proof. unfold planar_loop. ag_tac. Qed.
#[export] Hint Resolve ag_planar_loop : ag.
Lemma ag_h_dist (x0 : Z * Z * Z) (x1 : Z * Z * Z) (x2 : Z) : agrees (@h_dist Checked  x0 x1 x2) (@h_dist Wrapping  x0 x1 x2).
Proof. unfold h_dist. ag_tac. Qed.
#[export] Hint Resolve ag_h_dist : ag.
Lemma ag_decode_etc2_rgb_block (x0 : list Z) (x1 : list Z) : agrees (@decode_etc2_rgb_block Checked  x0 x1) (@decode_etc2_rgb_block Wrapping  x0 x1).
Proof. unfold decode_etc2_rgb_block. ag_tac. Qed.
#[export] Hint Resolve ag_decode_etc2_rgb_block : ag.
Lemma ag_etc2a_sub_loop (x0 : bool) (x1 : Z * Z * Z) (x2 : Z * Z * Z) (x3 : Z) (x4 : Z) (x5 : list Z) (x6 : list Z) (x7 : Z) (x8 : Z) : agrees (@etc2a_sub_loop Checked  x0 x1 x2 x3 x4 x5 x6 x7 x8) (@etc2a_sub_loop Wrapping  x0 x1 x2 x3 x4 x5 x6 x7 x8).
Proof. unfold etc2a_sub_loop. ag_tac. Qed.
#[export] Hint Resolve ag_etc2a_sub_loop : ag.
Lemma ag_decode_etc2_rgba1_block (x0 : list Z) (x1 : list Z) : agrees (@decode_etc2_rgba1_block Checked  x0 x1) (@decode_etc2_rgba1_block Wrapping  x0 x1).
Proof. unfold decode_etc2_rgba1_block. ag_tac. Qed.
#[export] Hint Resolve ag_decode_etc2_rgba1_block : ag.
Lemma ag_decode_etc2_a8_block (x0 : list Z) (x1 : list Z) : agrees (@decode_etc2_a8_block Checked  x0 x1) (@decode_etc2_a8_block Wrapping  x0 x1).
Proof. unfold decode_etc2_a8_block. ag_tac. Qed.
#[export] Hint Resolve ag_decode_etc2_a8_block : ag.
Lemma ag_decode_etc2_rgba8_block (x0 : list Z) (x1 : list Z) : agrees (@decode_etc2_rgba8_block Checked  x0 x1) (@decode_etc2_rgba8_block Wrapping  x0 x1).
Proof. unfold decode_etc2_rgba8_block. ag_tac. Qed.
#[export] Hint Resolve ag_decode_etc2_rgba8_block : ag.
Lemma ag_decode_eac_gen (x0 : Z) (x1 : Z) (x2 : list Z) (x3 : Z) (x4 : list Z) : agrees (@decode_eac_gen Checked  x0 x1 x2 x3 x4) (@decode_eac_gen Wrapping  x0 x1 x2 x3 x4).
Proof. unfold decode_eac_gen. ag_tac. Qed.
#[export] Hint Resolve ag_decode_eac_gen : ag.
Lemma ag_decode_eac_block (x0 : list Z) (x1 : Z) (x2 : list Z) : agrees (@decode_eac_block Checked  x0 x1 x2) (@decode_eac_block Wrapping  x0 x1 x2).
Proof. unfold decode_eac_block. ag_tac. Qed.
#[export] Hint Resolve ag_decode_eac_block : ag.
Lemma ag_decode_eac_signed_block (x0 : list Z) (x1 : Z) (x2 : list Z) : agrees (@decode_eac_signed_block Checked  x0 x1 x2) (@decode_eac_signed_block Wrapping  x0 x1 x2).
Proof. unfold decode_eac_signed_block. ag_tac. Qed.
#[export] Hint Resolve ag_decode_eac_signed_block : ag.
Lemma ag_decode_eacr_block (x0 : list Z) (x1 : list Z) : agrees (@decode_eacr_block Checked  x0 x1) (@decode_eacr_block Wrapping  x0 x1).
Proof. unfold decode_eacr_block. ag_tac. Qed.
#[export] Hint Resolve ag_decode_eacr_block : ag.
Lemma ag_decode_eacr_signed_block (x0 : list Z) (x1 : list Z) : agrees (@decode_eacr_signed_block Checked  x0 x1) (@decode_eacr_signed_block Wrapping  x0 x1).
Proof. unfold decode_eacr_signed_block. ag_tac. Qed.
#[export] Hint Resolve ag_decode_eacr_signed_block : ag.
Lemma ag_decode_eacrg_block (x0 : list Z) (x1 : list Z) : agrees (@decode_eacrg_block Checked  x0 x1) (@decode_eacrg_block Wrapping  x0 x1).
Proof. unfold decode_eacrg_block. ag_tac. Qed.
#[export] Hint Resolve ag_decode_eacrg_block : ag.
Lemma ag_decode_eacrg_signed_block (x0 : list Z) (x1 : list Z) : agrees (@decode_eacrg_signed_block Checked  x0 x1) (@decode_eacrg_signed_block Wrapping  x0 x1).
Proof. unfold decode_eacrg_signed_block. ag_tac. Qed.
#[export] Hint Resolve ag_decode_eacrg_signed_block : ag.
Lemma ag_decode_etc1 (x0 : list Z) (x1 : Z) (x2 : Z) (x3 : list Z) : agrees (@decode_etc1 Checked  x0 x1 x2 x3) (@decode_etc1 Wrapping  x0 x1 x2 x3).
Proof. unfold decode_etc1. ag_tac. Qed.
#[export] Hint Resolve ag_decode_etc1 : ag.
Lemma ag_decode_etc2_rgb (x0 : list Z) (x1 : Z) (x2 : Z) (x3 : list Z) : agrees (@decode_etc2_rgb Checked  x0 x1 x2 x3) (@decode_etc2_rgb Wrapping  x0 x1 x2 x3).
Proof. unfold decode_etc2_rgb. ag_tac. Qed.
#[export] Hint Resolve ag_decode_etc2_rgb : ag.
Lemma ag_decode_etc2_rgba1 (x0 : list Z) (x1 : Z) (x2 : Z) (x3 : list Z) : agrees (@decode_etc2_rgba1 Checked  x0 x1 x2 x3) (@decode_etc2_rgba1 Wrapping  x0 x1 x2 x3).
Proof. unfold decode_etc2_rgba1. ag_tac. Qed.
#[export] Hint Resolve ag_decode_etc2_rgba1 : ag.
Lemma ag_decode_etc2_rgba8 (x0 : list Z) (x1 : Z) (x2 : Z) (x3 : list Z) : agrees (@decode_etc2_rgba8 Checked  x0 x1 x2 x3) (@decode_etc2_rgba8 Wrapping  x0 x1 x2 x3).
Proof. unfold decode_etc2_rgba8. ag_tac. Qed.
#[export] Hint Resolve ag_decode_etc2_rgba8 : ag.
Lemma ag_decode_eacr (x0 : list Z) (x1 : Z) (x2 : Z) (x3 : list Z) : agrees (@decode_eacr Checked  x0 x1 x2 x3) (@decode_eacr Wrapping  x0 x1 x2 x3).
Proof. unfold decode_eacr. ag_tac. Qed.
#[export] Hint Resolve ag_decode_eacr : ag.
Lemma ag_decode_eacr_signed (x0 : list Z) (x1 : Z) (x2 : Z) (x3 : list Z) : agrees (@decode_eacr_signed Checked  x0 x1 x2 x3) (@decode_eacr_signed Wrapping  x0 x1 x2 x3).
Proof. unfold decode_eacr_signed. ag_tac. Qed.
#[export] Hint Resolve ag_decode_eacr_signed : ag.
Lemma ag_decode_eacrg (x0 : list Z) (x1 : Z) (x2 : Z) (x3 : list Z) : agrees (@decode_eacrg Checked  x0 x1 x2 x3) (@decode_eacrg Wrapping  x0 x1 x2 x3).
Proof. unfold decode_eacrg. ag_tac. Qed.
#[export] Hint Resolve ag_decode_eacrg : ag.
Lemma ag_decode_eacrg_signed (x0 : list Z) (x1 : Z) (x2 : Z) (x3 : list Z) : agrees (@decode_eacrg_signed Checked  x0 x1 x2 x3) (@decode_eacrg_signed Wrapping  x0 x1 x2 x3).
Proof. unfold decode_eacrg_signed. ag_tac. Qed.
#[export] Hint Resolve ag_decode_eacrg_signed : ag.
Lemma ag_morton_loop (x0 : nat) (x1 : Z) (x2 : Z) (x3 : Z) (x4 : Z) (x5 : Z) (x6 : Z) : agrees (@morton_loop Checked  x0 x1 x2 x3 x4 x5 x6) (@morton_loop Wrapping  x0 x1 x2 x3 x4 x5 x6).
Proof. revert x1 x2 x3 x4 x5 x6. induction x0; intros; cbn [morton_loop]; repeat (apply IHx0 || ag_step). Qed.
#[export] Hint Resolve ag_morton_loop : ag.
Lemma ag_morton_index (x0 : Z) (x1 : Z) (x2 : Z) : agrees (@morton_index Checked  x0 x1 x2) (@morton_index Wrapping  x0 x1 x2).
Proof. unfold morton_index. ag_tac. Qed.
#[export] Hint Resolve ag_morton_index : ag.
Lemma ag_get_texel_weights_4bpp (x0 : list Z) (x1 : tinfo) : agrees (@get_texel_weights_4bpp Checked  x0 x1) (@get_texel_weights_4bpp Wrapping  x0 x1).
Proof. unfold get_texel_weights_4bpp. ag_tac. Qed.
#[export] Hint Resolve ag_get_texel_weights_4bpp : ag.
Lemma ag_get_texel_weights_2bpp (x0 : list Z) (x1 : tinfo) : agrees (@get_texel_weights_2bpp Checked  x0 x1) (@get_texel_weights_2bpp Wrapping  x0 x1).
Proof. unfold get_texel_weights_2bpp. ag_tac. Qed.
#[export] Hint Resolve ag_get_texel_weights_2bpp : ag.
Lemma ag_interpolate_color (x0 : Z) (x1 : Z) (x2 : Z) : agrees (@interpolate_color Checked  x0 x1 x2) (@interpolate_color Wrapping  x0 x1 x2).
Proof. unfold interpolate_color. ag_tac. Qed.
#[export] Hint Resolve ag_interpolate_color : ag.
Lemma ag_pvr_accumulate (x0 : list tinfo) (x1 : (tinfo -> list Z)) (x2 : Z) (x3 : list Z) (x4 : list Z) : agrees (@pvr_accumulate Checked  x0 x1 x2 x3 x4) (@pvr_accumulate Wrapping  x0 x1 x2 x3 x4).
Proof. unfold pvr_accumulate. ag_tac. Qed.
#[export] Hint Resolve ag_pvr_accumulate : ag.
Lemma ag_pvr_scale (x0 : Z) (x1 : Z) (x2 : Z) : agrees (@pvr_scale Checked  x0 x1 x2) (@pvr_scale Wrapping  x0 x1 x2).
Proof. unfold pvr_scale. ag_tac. Qed.
#[export] Hint Resolve ag_pvr_scale : ag.
Lemma ag_pvr_clr (x0 : list tinfo) (x1 : (tinfo -> list Z)) (x2 : list Z) (x3 : list Z) (x4 : Z) (x5 : Z) (x6 : Z) (x7 : Z) : agrees (@pvr_clr Checked  x0 x1 x2 x3 x4 x5 x6 x7) (@pvr_clr Wrapping  x0 x1 x2 x3 x4 x5 x6 x7).
Proof. unfold pvr_clr. ag_tac. Qed.
#[export] Hint Resolve ag_pvr_clr : ag.
Lemma ag_pvr_pixel (x0 : list Z) (x1 : list Z) (x2 : Z) (x3 : Z) : agrees (@pvr_pixel Checked  x0 x1 x2 x3) (@pvr_pixel Wrapping  x0 x1 x2 x3).
Proof. unfold pvr_pixel. ag_tac. Qed.
#[export] Hint Resolve ag_pvr_pixel : ag.
Lemma ag_applicate_color_4bpp (x0 : list tinfo) (x1 : list Z) : agrees (@applicate_color_4bpp Checked  x0 x1) (@applicate_color_4bpp Wrapping  x0 x1).
Proof. unfold applicate_color_4bpp. ag_tac. Qed.
#[export] Hint Resolve ag_applicate_color_4bpp : ag.
Lemma ag_pvr_neighbour (x0 : list tinfo) (x1 : list (Z * Z)) (x2 : Z) (x3 : Z) : agrees (@pvr_neighbour Checked  x0 x1 x2 x3) (@pvr_neighbour Wrapping  x0 x1 x2 x3).
Proof. unfold pvr_neighbour. ag_tac. Qed.
#[export] Hint Resolve ag_pvr_neighbour : ag.
Lemma ag_pvr_weight_2bpp (x0 : list tinfo) (x1 : Z) (x2 : Z) (x3 : Z) (x4 : Z) : agrees (@pvr_weight_2bpp Checked  x0 x1 x2 x3 x4) (@pvr_weight_2bpp Wrapping  x0 x1 x2 x3 x4).
Proof. unfold pvr_weight_2bpp. ag_tac. Qed.
#[export] Hint Resolve ag_pvr_weight_2bpp : ag.
Lemma ag_applicate_color_2bpp (x0 : list tinfo) (x1 : list Z) : agrees (@applicate_color_2bpp Checked  x0 x1) (@applicate_color_2bpp Wrapping  x0 x1).
Proof. unfold applicate_color_2bpp. ag_tac. Qed.
#[export] Hint Resolve ag_applicate_color_2bpp : ag.
Lemma ag_pvr_infos (x0 : list Z) (x1 : Z) (x2 : bool) : agrees (@pvr_infos Checked  x0 x1 x2) (@pvr_infos Wrapping  x0 x1 x2).
Proof. unfold pvr_infos. ag_tac. Qed.
#[export] Hint Resolve ag_pvr_infos : ag.
Lemma ag_pvr_positions (x0 : Z) (x1 : Z) : agrees (@pvr_positions Checked  x0 x1) (@pvr_positions Wrapping  x0 x1).
Proof. unfold pvr_positions. ag_tac. Qed.
#[export] Hint Resolve ag_pvr_positions : ag.
Lemma ag_decode_pvrtc (x0 : list Z) (x1 : Z) (x2 : Z) (x3 : list Z) (x4 : bool) : agrees (@decode_pvrtc Checked  x0 x1 x2 x3 x4) (@decode_pvrtc Wrapping  x0 x1 x2 x3 x4).
Proof. unfold decode_pvrtc. ag_tac. Qed.
#[export] Hint Resolve ag_decode_pvrtc : ag.
Lemma ag_decode_pvrtc_2bpp (x0 : list Z) (x1 : Z) (x2 : Z) (x3 : list Z) : agrees (@decode_pvrtc_2bpp Checked  x0 x1 x2 x3) (@decode_pvrtc_2bpp Wrapping  x0 x1 x2 x3).
Proof. unfold decode_pvrtc_2bpp. ag_tac. Qed.
#[export] Hint Resolve ag_decode_pvrtc_2bpp : ag.
Lemma ag_decode_pvrtc_4bpp (x0 : list Z) (x1 : Z) (x2 : Z) (x3 : list Z) : agrees (@decode_pvrtc_4bpp Checked  x0 x1 x2 x3) (@decode_pvrtc_4bpp Wrapping  x0 x1 x2 x3).
Proof. unfold decode_pvrtc_4bpp. ag_tac. Qed.
#[export] Hint Resolve ag_decode_pvrtc_4bpp : ag.
Lemma ag_bit_transfer_signed_alt (x0 : list Z) (x1 : Z) (x2 : Z) : agrees (@bit_transfer_signed_alt Checked  x0 x1 x2) (@bit_transfer_signed_alt Wrapping  x0 x1 x2).
Proof. unfold bit_transfer_signed_alt. ag_tac. Qed.
#[export] Hint Resolve ag_bit_transfer_signed_alt : ag.
Lemma ag_set_endpoint_blue (x0 : Z) (x1 : Z) (x2 : Z) (x3 : Z) (x4 : Z) (x5 : Z) (x6 : Z) (x7 : Z) : agrees (@set_endpoint_blue Checked  x0 x1 x2 x3 x4 x5 x6 x7) (@set_endpoint_blue Wrapping  x0 x1 x2 x3 x4 x5 x6 x7).
Proof. unfold set_endpoint_blue. ag_tac. Qed.
#[export] Hint Resolve ag_set_endpoint_blue : ag.
Lemma ag_set_endpoint_blue_clamp (x0 : Z) (x1 : Z) (x2 : Z) (x3 : Z) (x4 : Z) (x5 : Z) (x6 : Z) (x7 : Z) : agrees (@set_endpoint_blue_clamp Checked  x0 x1 x2 x3 x4 x5 x6 x7) (@set_endpoint_blue_clamp Wrapping  x0 x1 x2 x3 x4 x5 x6 x7).
Proof. unfold set_endpoint_blue_clamp. ag_tac. Qed.
#[export] Hint Resolve ag_set_endpoint_blue_clamp : ag.
Lemma ag_bit_reverse_u8 (x0 : Z) (x1 : Z) : agrees (@bit_reverse_u8 Checked  x0 x1) (@bit_reverse_u8 Wrapping  x0 x1).
Proof. unfold bit_reverse_u8. ag_tac. Qed.
#[export] Hint Resolve ag_bit_reverse_u8 : ag.
Lemma ag_bit_reverse_u64 (x0 : Z) (x1 : Z) : agrees (@bit_reverse_u64 Checked  x0 x1) (@bit_reverse_u64 Wrapping  x0 x1).
Proof. unfold bit_reverse_u64. ag_tac. Qed.
#[export] Hint Resolve ag_bit_reverse_u64 : ag.
Lemma ag_select_color (x0 : Z) (x1 : Z) (x2 : Z) : agrees (@select_color Checked  x0 x1 x2) (@select_color Wrapping  x0 x1 x2).
Proof. unfold select_color. ag_tac. Qed.
#[export] Hint Resolve ag_select_color : ag.
Lemma ag_select_color_hdr (x0 : Z) (x1 : Z) (x2 : Z) : agrees (@select_color_hdr Checked  x0 x1 x2) (@select_color_hdr Wrapping  x0 x1 x2).
Proof. unfold select_color_hdr. ag_tac. Qed.
#[export] Hint Resolve ag_select_color_hdr : ag.
Lemma ag_trit_index (x0 : Z) (x1 : Z) : agrees (@trit_index Checked  x0 x1) (@trit_index Wrapping  x0 x1).
Proof. unfold trit_index. ag_tac. Qed.
#[export] Hint Resolve ag_trit_index : ag.
Lemma ag_quint_index (x0 : Z) (x1 : Z) : agrees (@quint_index Checked  x0 x1) (@quint_index Wrapping  x0 x1).
Proof. unfold quint_index. ag_tac. Qed.
#[export] Hint Resolve ag_quint_index : ag.
Lemma ag_packed_loop (x0 : list Z) (x1 : Z) (x2 : Z) (x3 : Z) (x4 : bool) (x5 : Z) (x6 : Z) (x7 x7' : (Z -> Z -> res Z)) (x8 : list Z) (x9 : list (list Z)) (x10 : list (Z * Z)) : (forall a0 a1, agrees (x7 a0 a1) (x7' a0 a1)) -> agrees (@packed_loop Checked  x0 x1 x2 x3 x4 x5 x6 x7 x8 x9 x10) (@packed_loop Wrapping  x0 x1 x2 x3 x4 x5 x6 x7' x8 x9 x10).
Proof. intros. unfold packed_loop. ag_tac. Qed.
#[export] Hint Resolve ag_packed_loop : ag.
Lemma ag_decode_intseq (x0 : list Z) (x1 : Z) (x2 : Z) (x3 : Z) (x4 : Z) (x5 : bool) (x6 : list (Z * Z)) : agrees (@decode_intseq Checked  x0 x1 x2 x3 x4 x5 x6) (@decode_intseq Wrapping  x0 x1 x2 x3 x4 x5 x6).
Proof. unfold decode_intseq. ag_tac. Qed.
#[export] Hint Resolve ag_decode_intseq : ag.
Lemma ag_block_cem (x0 : list Z) (x1 : Z) (x2 : Z) : agrees (@block_cem Checked  x0 x1 x2) (@block_cem Wrapping  x0 x1 x2).
Proof. unfold block_cem. ag_tac. Qed.
#[export] Hint Resolve ag_block_cem : ag.
Lemma ag_decode_block_params (x0 : list Z) : agrees (@decode_block_params Checked  x0) (@decode_block_params Wrapping  x0).
Proof. unfold decode_block_params. ag_tac. Qed.
#[export] Hint Resolve ag_decode_block_params : ag.
Lemma ag_decode_endpoints_hdr7 (x0 : list Z) : agrees (@decode_endpoints_hdr7 Checked  x0) (@decode_endpoints_hdr7 Wrapping  x0).
Proof. unfold decode_endpoints_hdr7. ag_tac. Qed.
#[export] Hint Resolve ag_decode_endpoints_hdr7 : ag.
Lemma ag_decode_endpoints_hdr11 (x0 : list Z) (x1 : Z) (x2 : Z) : agrees (@decode_endpoints_hdr11 Checked  x0 x1 x2) (@decode_endpoints_hdr11 Wrapping  x0 x1 x2).
Proof. unfold decode_endpoints_hdr11. ag_tac. Qed.
#[export] Hint Resolve ag_decode_endpoints_hdr11 : ag.
Lemma ag_ep_trit_b (x0 : Z) (x1 : Z) : agrees (@ep_trit_b Checked  x0 x1) (@ep_trit_b Wrapping  x0 x1).
Proof. unfold ep_trit_b. ag_tac. Qed.
#[export] Hint Resolve ag_ep_trit_b : ag.
Lemma ag_ep_quint_b (x0 : Z) (x1 : Z) : agrees (@ep_quint_b Checked  x0 x1) (@ep_quint_b Wrapping  x0 x1).
Proof. unfold ep_quint_b. ag_tac. Qed.
#[export] Hint Resolve ag_ep_quint_b : ag.
Lemma ag_unquant_endpoint (x0 : Z) (x1 : Z) (x2 : Z * Z) : agrees (@unquant_endpoint Checked  x0 x1 x2) (@unquant_endpoint Wrapping  x0 x1 x2).
Proof. unfold unquant_endpoint. ag_tac. Qed.
#[export] Hint Resolve ag_unquant_endpoint : ag.
Lemma ag_decode_cem (x0 : Z) (x1 : list Z) : agrees (@decode_cem Checked  x0 x1) (@decode_cem Wrapping  x0 x1).
Proof. unfold decode_cem. ag_tac. Qed.
#[export] Hint Resolve ag_decode_cem : ag.
Lemma ag_decode_endpoints (x0 : list Z) (x1 : BlockParams) : agrees (@decode_endpoints Checked  x0 x1) (@decode_endpoints Wrapping  x0 x1).
Proof. unfold decode_endpoints. ag_tac. Qed.
#[export] Hint Resolve ag_decode_endpoints : ag.
Lemma ag_unquant_weight (x0 : Z) (x1 : Z) (x2 : Z * Z) : agrees (@unquant_weight Checked  x0 x1 x2) (@unquant_weight Wrapping  x0 x1 x2).
Proof. unfold unquant_weight. ag_tac. Qed.
#[export] Hint Resolve ag_unquant_weight : ag.
Lemma ag_weight_values (x0 : list Z) (x1 : BlockParams) : agrees (@weight_values Checked  x0 x1) (@weight_values Wrapping  x0 x1).
Proof. unfold weight_values. ag_tac. Qed.
#[export] Hint Resolve ag_weight_values : ag.
Lemma ag_infill_weights (x0 : Z) (x1 : Z) (x2 : Z) (x3 : Z) (x4 : bool) (x5 : list Z) : agrees (@infill_weights Checked  x0 x1 x2 x3 x4 x5) (@infill_weights Wrapping  x0 x1 x2 x3 x4 x5).
Proof. unfold infill_weights. ag_tac. Qed.
#[export] Hint Resolve ag_infill_weights : ag.
Lemma ag_decode_weights (x0 : list Z) (x1 : Z) (x2 : Z) (x3 : BlockParams) : agrees (@decode_weights Checked  x0 x1 x2 x3) (@decode_weights Wrapping  x0 x1 x2 x3).
Proof. unfold decode_weights. ag_tac. Qed.
#[export] Hint Resolve ag_decode_weights : ag.
Lemma ag_partition_of (x0 : list Z) (x1 : Z) (x2 : Z) (x3 : Z) (x4 : Z) : agrees (@partition_of Checked  x0 x1 x2 x3 x4) (@partition_of Wrapping  x0 x1 x2 x3 x4).
Proof. unfold partition_of. ag_tac. Qed.
#[export] Hint Resolve ag_partition_of : ag.
Lemma ag_select_partition (x0 : list Z) (x1 : Z) (x2 : Z) (x3 : Z) : agrees (@select_partition Checked  x0 x1 x2 x3) (@select_partition Wrapping  x0 x1 x2 x3).
Proof. unfold select_partition. ag_tac. Qed.
#[export] Hint Resolve ag_select_partition : ag.
Lemma ag_pick_color (x0 : list bool) (x1 : Z) (x2 : Z) (x3 : Z) (x4 : Z) : agrees (@pick_color Checked  x0 x1 x2 x3 x4) (@pick_color Wrapping  x0 x1 x2 x3 x4).
Proof. unfold pick_color. ag_tac. Qed.
#[export] Hint Resolve ag_pick_color : ag.
Lemma ag_astc_applicate_color (x0 : Z) (x1 : Z) (x2 : BlockParams) (x3 : list (list Z)) (x4 : list (list Z)) (x5 : list Z) (x6 : list Z) : agrees (@ModelAstc.applicate_color Checked  x0 x1 x2 x3 x4 x5 x6) (@ModelAstc.applicate_color Wrapping  x0 x1 x2 x3 x4 x5 x6).
Proof. unfold ModelAstc.applicate_color. ag_tac. Qed.
#[export] Hint Resolve ag_astc_applicate_color : ag.
Lemma ag_decode_astc_block (x0 : list Z) (x1 : Z) (x2 : Z) (x3 : list Z) : agrees (@decode_astc_block Checked  x0 x1 x2 x3) (@decode_astc_block Wrapping  x0 x1 x2 x3).
Proof. unfold decode_astc_block. ag_tac. Qed.
#[export] Hint Resolve ag_decode_astc_block : ag.
Lemma ag_decode_astc (x0 : list Z) (x1 : Z) (x2 : Z) (x3 : Z) (x4 : Z) (x5 : list Z) : agrees (@decode_astc Checked  x0 x1 x2 x3 x4 x5) (@decode_astc Wrapping  x0 x1 x2 x3 x4 x5).
Proof. unfold decode_astc. ag_tac. Qed.
#[export] Hint Resolve ag_decode_astc : ag.
Lemma ag_decode_astc_sized (x0 : Z) (x1 : Z) (x2 : list Z) (x3 : Z) (x4 : Z) (x5 : list Z) : agrees (@decode_astc_sized Checked  x0 x1 x2 x3 x4 x5) (@decode_astc_sized Wrapping  x0 x1 x2 x3 x4 x5).
Proof. unfold decode_astc_sized. ag_tac. Qed.
#[export] Hint Resolve ag_decode_astc_sized : ag.
Lemma ag_limit (x0 : Z) (x1 : Z) : agrees (@limit Checked  x0 x1) (@limit Wrapping  x0 x1).
Proof. unfold limit. ag_tac. Qed.
#[export] Hint Resolve ag_limit : ag.
Lemma ag_count_codes (x0 : Z) (x1 : list Z) : agrees (@count_codes Checked  x0 x1) (@count_codes Wrapping  x0 x1).
Proof. unfold count_codes. ag_tac. Qed.
#[export] Hint Resolve ag_count_codes : ag.
Lemma ag_length_step (x0 : list Z) (x1 : Z) (x2 : lens) : agrees (@length_step Checked  x0 x1 x2) (@length_step Wrapping  x0 x1 x2).
Proof. unfold length_step. ag_tac. Qed.
#[export] Hint Resolve ag_length_step : ag.
Lemma ag_length_loop (x0 : list Z) : agrees (@length_loop Checked  x0) (@length_loop Wrapping  x0).
Proof. unfold length_loop. ag_tac. Qed.
#[export] Hint Resolve ag_length_loop : ag.
Lemma ag_sort_symbols (x0 : Z) (x1 : list Z) (x2 : list Z) (x3 : Z) (x4 : list Z) (x5 : list Z) : agrees (@sort_symbols Checked  x0 x1 x2 x3 x4 x5) (@sort_symbols Wrapping  x0 x1 x2 x3 x4 x5).
Proof. unfold sort_symbols. ag_tac. Qed.
#[export] Hint Resolve ag_sort_symbols : ag.
Lemma ag_get_unshifted_max_code (x0 : list Z) (x1 : Z) : agrees (@get_unshifted_max_code Checked  x0 x1) (@get_unshifted_max_code Wrapping  x0 x1).
Proof. unfold get_unshifted_max_code. ag_tac. Qed.
#[export] Hint Resolve ag_get_unshifted_max_code : ag.
Lemma ag_fill_lookup (x0 : Z) (x1 : list Z) (x2 : list Z) (x3 : list Z) (x4 : list Z) (x5 : list Z) (x6 : list Z) : agrees (@fill_lookup Checked  x0 x1 x2 x3 x4 x5 x6) (@fill_lookup Wrapping  x0 x1 x2 x3 x4 x5 x6).
Proof. unfold fill_lookup. ag_tac. Qed.
#[export] Hint Resolve ag_fill_lookup : ag.
Lemma ag_adjust_val_ptrs (x0 : list Z) (x1 : list Z) : agrees (@adjust_val_ptrs Checked  x0 x1) (@adjust_val_ptrs Wrapping  x0 x1).
Proof. unfold adjust_val_ptrs. ag_tac. Qed.
#[export] Hint Resolve ag_adjust_val_ptrs : ag.
Lemma ag_tables_init (x0 : Z) (x1 : list Z) (x2 : Z) : agrees (@tables_init Checked  x0 x1 x2) (@tables_init Wrapping  x0 x1 x2).
Proof. unfold tables_init. ag_tac. Qed.
#[export] Hint Resolve ag_tables_init : ag.
Lemma ag_prepare_decoder_tables (x0 : list Z) : agrees (@prepare_decoder_tables Checked  x0) (@prepare_decoder_tables Wrapping  x0).
Proof. unfold prepare_decoder_tables. ag_tac. Qed.
#[export] Hint Resolve ag_prepare_decoder_tables : ag.
Lemma ag_get_bits_loop (x0 : nat) (x1 : Z) (x2 : codec) : agrees (@get_bits_loop Checked  x0 x1 x2) (@get_bits_loop Wrapping  x0 x1 x2).
Proof. revert x1 x2. induction x0; intros; cbn [get_bits_loop]; repeat (apply IHx0 || ag_step). Qed.
#[export] Hint Resolve ag_get_bits_loop : ag.
Lemma ag_get_bits (x0 : Z) (x1 : codec) : agrees (@get_bits Checked  x0 x1) (@get_bits Wrapping  x0 x1).
Proof. unfold get_bits. ag_tac. Qed.
#[export] Hint Resolve ag_get_bits : ag.
Lemma ag_decode_bits (x0 : Z) (x1 : codec) : agrees (@decode_bits Checked  x0 x1) (@decode_bits Wrapping  x0 x1).
Proof. unfold decode_bits. ag_tac. Qed.
#[export] Hint Resolve ag_decode_bits : ag.
Lemma ag_refill (x0 : codec) : agrees (@refill Checked  x0) (@refill Wrapping  x0).
Proof. unfold refill. ag_tac. Qed.
#[export] Hint Resolve ag_refill : ag.
Lemma ag_lookup_symbol (x0 : model) (x1 : Z) : agrees (@lookup_symbol Checked  x0 x1) (@lookup_symbol Wrapping  x0 x1).
Proof. unfold lookup_symbol. ag_tac. Qed.
#[export] Hint Resolve ag_lookup_symbol : ag.
Lemma ag_decode (x0 : model) (x1 : codec) : agrees (@decode Checked  x0 x1) (@decode Wrapping  x0 x1).
Proof. unfold decode. ag_tac. Qed.
#[export] Hint Resolve ag_decode : ag.
Lemma ag_codelength_sizes (x0 : Z) (x1 : codec) : agrees (@codelength_sizes Checked  x0 x1) (@codelength_sizes Wrapping  x0 x1).
Proof. unfold codelength_sizes. ag_tac. Qed.
#[export] Hint Resolve ag_codelength_sizes : ag.
Lemma ag_receive_step (x0 : model) (x1 : Z) (x2 : list Z * Z * codec) : agrees (@receive_step Checked  x0 x1 x2) (@receive_step Wrapping  x0 x1 x2).
Proof. unfold receive_step. ag_tac. Qed.
#[export] Hint Resolve ag_receive_step : ag.
Lemma ag_receive_loop (x0 : nat) (x1 : model) (x2 : Z) (x3 : list Z * Z * codec) : agrees (@receive_loop Checked  x0 x1 x2 x3) (@receive_loop Wrapping  x0 x1 x2 x3).
Proof. revert x3. induction x0; intros; cbn [receive_loop]; repeat (apply IHx0 || ag_step). Qed.
#[export] Hint Resolve ag_receive_loop : ag.
Lemma ag_receive_model (x0 : codec) : agrees (@receive_model Checked  x0) (@receive_model Wrapping  x0).
Proof. unfold receive_model. ag_tac. Qed.
#[export] Hint Resolve ag_receive_model : ag.
Lemma ag_init_tables (x0 : list Z) (x1 : header) : agrees (@init_tables Checked  x0 x1) (@init_tables Wrapping  x0 x1).
Proof. unfold init_tables. ag_tac. Qed.
#[export] Hint Resolve ag_init_tables : ag.
Lemma ag_color_endpoint_step (x0 : model) (x1 : model) (x2 : Z * Z * Z * Z * Z * Z * list Z * codec) : agrees (@color_endpoint_step Checked  x0 x1 x2) (@color_endpoint_step Wrapping  x0 x1 x2).
Proof. unfold color_endpoint_step. ag_tac. Qed.
#[export] Hint Resolve ag_color_endpoint_step : ag.
Lemma ag_decode_color_endpoints (x0 : list Z) (x1 : header) : agrees (@decode_color_endpoints Checked  x0 x1) (@decode_color_endpoints Wrapping  x0 x1).
Proof. unfold decode_color_endpoints. ag_tac. Qed.
#[export] Hint Resolve ag_decode_color_endpoints : ag.
Lemma ag_selector_step (x0 : Z) (x1 : model) (x2 : list Z) (x3 : list Z) (x4 : list Z * codec) : agrees (@selector_step Checked  x0 x1 x2 x3 x4) (@selector_step Wrapping  x0 x1 x2 x3 x4).
Proof. unfold selector_step. ag_tac. Qed.
#[export] Hint Resolve ag_selector_step : ag.
Lemma ag_decode_color_selectors (x0 : list Z) (x1 : header) : agrees (@decode_color_selectors Checked  x0 x1) (@decode_color_selectors Wrapping  x0 x1).
Proof. unfold decode_color_selectors. ag_tac. Qed.
#[export] Hint Resolve ag_decode_color_selectors : ag.
Lemma ag_decode_alpha_endpoints (x0 : list Z) (x1 : header) : agrees (@decode_alpha_endpoints Checked  x0 x1) (@decode_alpha_endpoints Wrapping  x0 x1).
Proof. unfold decode_alpha_endpoints. ag_tac. Qed.
#[export] Hint Resolve ag_decode_alpha_endpoints : ag.
Lemma ag_decode_alpha_selectors (x0 : list Z) (x1 : header) : agrees (@decode_alpha_selectors Checked  x0 x1) (@decode_alpha_selectors Wrapping  x0 x1).
Proof. unfold decode_alpha_selectors. ag_tac. Qed.
#[export] Hint Resolve ag_decode_alpha_selectors : ag.
Lemma ag_unpacker_init (x0 : list Z) (x1 : Z) : agrees (@unpacker_init Checked  x0 x1) (@unpacker_init Wrapping  x0 x1).
Proof. unfold unpacker_init. ag_tac. Qed.
#[export] Hint Resolve ag_unpacker_init : ag.
Lemma ag_crnd_unpack_begin (x0 : list Z) (x1 : Z) : agrees (@crnd_unpack_begin Checked  x0 x1) (@crnd_unpack_begin Wrapping  x0 x1).
Proof. unfold crnd_unpack_begin. ag_tac. Qed.
#[export] Hint Resolve ag_crnd_unpack_begin : ag.
Lemma ag_write_int (x0 : list Z) (x1 : Z) (x2 : Z) : agrees (@write_int Checked  x0 x1 x2) (@write_int Wrapping  x0 x1 x2).
Proof. unfold write_int. ag_tac. Qed.
#[export] Hint Resolve ag_write_int : ag.
Lemma ag_next_index (x0 : string) (x1 : model) (x2 : Z) (x3 : Z) (x4 : codec) : agrees (@next_index Checked  x0 x1 x2 x3 x4) (@next_index Wrapping  x0 x1 x2 x3 x4).
Proof. unfold next_index. ag_tac. Qed.
#[export] Hint Resolve ag_next_index : ag.
Lemma ag_next_encoding (x0 : string) (x1 : unpacker) (x2 : Z) (x3 : codec) : agrees (@next_encoding Checked  x0 x1 x2 x3) (@next_encoding Wrapping  x0 x1 x2 x3).
Proof. unfold next_encoding. ag_tac. Qed.
#[export] Hint Resolve ag_next_encoding : ag.
Lemma ag_tile_endpoints (x0 : string) (x1 : model) (x2 : list Z) (x3 : Z) (x4 : Z) (x5 : codec) : agrees (@tile_endpoints Checked  x0 x1 x2 x3 x4 x5) (@tile_endpoints Wrapping  x0 x1 x2 x3 x4 x5).
Proof. unfold tile_endpoints. ag_tac. Qed.
#[export] Hint Resolve ag_tile_endpoints : ag.
Lemma ag_chunk_loops (S : Type) (x0 : Z) (x1 : Z) (x2 : Z) (x3 : Z) (x4 : Z) (x5 : Z) (x6 : Z) (x7 x7' : (bool -> bool -> Z -> S -> res S)) (x8 : S) : (forall a0 a1 a2 a3, agrees (x7 a0 a1 a2 a3) (x7' a0 a1 a2 a3)) -> agrees (@chunk_loops Checked S x0 x1 x2 x3 x4 x5 x6 x7 x8) (@chunk_loops Wrapping S x0 x1 x2 x3 x4 x5 x6 x7' x8).
Proof. intros. unfold chunk_loops. ag_tac. Qed.
#[export] Hint Resolve ag_chunk_loops : ag.
Lemma ag_dxt1_full_block (x0 : unpacker) (x1 : list Z) (x2 : list Z) (x3 : Z) (x4 : Z) (x5 : Z * codec * list Z) : agrees (@dxt1_full_block Checked  x0 x1 x2 x3 x4 x5) (@dxt1_full_block Wrapping  x0 x1 x2 x3 x4 x5).
Proof. unfold dxt1_full_block. ag_tac. Qed.
#[export] Hint Resolve ag_dxt1_full_block : ag.
Lemma ag_dxt1_part_block (x0 : unpacker) (x1 : list Z) (x2 : list Z) (x3 : bool) (x4 : Z) (x5 : Z) (x6 : Z * codec * list Z) : agrees (@dxt1_part_block Checked  x0 x1 x2 x3 x4 x5 x6) (@dxt1_part_block Wrapping  x0 x1 x2 x3 x4 x5 x6).
Proof. unfold dxt1_part_block. ag_tac. Qed.
#[export] Hint Resolve ag_dxt1_part_block : ag.
Lemma ag_dxt1_chunk (x0 : unpacker) (x1 : Z) (x2 : bool) (x3 : bool) (x4 : Z) (x5 : dxt1_state) : agrees (@dxt1_chunk Checked  x0 x1 x2 x3 x4 x5) (@dxt1_chunk Wrapping  x0 x1 x2 x3 x4 x5).
Proof. unfold dxt1_chunk. ag_tac. Qed.
#[export] Hint Resolve ag_dxt1_chunk : ag.
Lemma ag_unpack_dxt1 (x0 : unpacker) (x1 : codec) (x2 : list Z) (x3 : Z) (x4 : Z) (x5 : Z) (x6 : Z) (x7 : Z) : agrees (@unpack_dxt1 Checked  x0 x1 x2 x3 x4 x5 x6 x7) (@unpack_dxt1 Wrapping  x0 x1 x2 x3 x4 x5 x6 x7).
Proof. unfold unpack_dxt1. ag_tac. Qed.
#[export] Hint Resolve ag_unpack_dxt1 : ag.
Lemma ag_chunk_blocks (S : Type) (x0 : Z) (x1 : Z) (x2 : Z) (x3 : bool) (x4 : bool) (x5 x5' : (bool -> Z -> Z -> S -> res S)) (x6 : S) : (forall a0 a1 a2 a3, agrees (x5 a0 a1 a2 a3) (x5' a0 a1 a2 a3)) -> agrees (@chunk_blocks Checked S x0 x1 x2 x3 x4 x5 x6) (@chunk_blocks Wrapping S x0 x1 x2 x3 x4 x5' x6).
Proof. intros. unfold chunk_blocks. ag_tac. Qed.
#[export] Hint Resolve ag_chunk_blocks : ag.
Lemma ag_alpha_words (x0 : unpacker) (x1 : Z) : agrees (@alpha_words Checked  x0 x1) (@alpha_words Wrapping  x0 x1).
Proof. unfold alpha_words. ag_tac. Qed.
#[export] Hint Resolve ag_alpha_words : ag.
Lemma ag_write_alpha (x0 : unpacker) (x1 : list Z) (x2 : Z) (x3 : Z) (x4 : Z * Z * Z) : agrees (@write_alpha Checked  x0 x1 x2 x3 x4) (@write_alpha Wrapping  x0 x1 x2 x3 x4).
Proof. unfold write_alpha. ag_tac. Qed.
#[export] Hint Resolve ag_write_alpha : ag.
Lemma ag_dxt5_block (x0 : unpacker) (x1 : list Z) (x2 : list Z) (x3 : list Z) (x4 : bool) (x5 : Z) (x6 : Z) (x7 : Z * Z * codec * list Z) : agrees (@dxt5_block Checked  x0 x1 x2 x3 x4 x5 x6 x7) (@dxt5_block Wrapping  x0 x1 x2 x3 x4 x5 x6 x7).
Proof. unfold dxt5_block. ag_tac. Qed.
#[export] Hint Resolve ag_dxt5_block : ag.
Lemma ag_dxt5_chunk (x0 : unpacker) (x1 : Z) (x2 : bool) (x3 : bool) (x4 : Z) (x5 : dxt5_state) : agrees (@dxt5_chunk Checked  x0 x1 x2 x3 x4 x5) (@dxt5_chunk Wrapping  x0 x1 x2 x3 x4 x5).
Proof. unfold dxt5_chunk. ag_tac. Qed.
#[export] Hint Resolve ag_dxt5_chunk : ag.
Lemma ag_unpack_dxt5 (x0 : unpacker) (x1 : codec) (x2 : list Z) (x3 : Z) (x4 : Z) (x5 : Z) (x6 : Z) (x7 : Z) : agrees (@unpack_dxt5 Checked  x0 x1 x2 x3 x4 x5 x6 x7) (@unpack_dxt5 Wrapping  x0 x1 x2 x3 x4 x5 x6 x7).
Proof. unfold unpack_dxt5. ag_tac. Qed.
#[export] Hint Resolve ag_unpack_dxt5 : ag.
Lemma ag_dxt5a_block (x0 : unpacker) (x1 : list Z) (x2 : list Z) (x3 : bool) (x4 : Z) (x5 : Z) (x6 : Z * codec * list Z) : agrees (@dxt5a_block Checked  x0 x1 x2 x3 x4 x5 x6) (@dxt5a_block Wrapping  x0 x1 x2 x3 x4 x5 x6).
Proof. unfold dxt5a_block. ag_tac. Qed.
#[export] Hint Resolve ag_dxt5a_block : ag.
Lemma ag_dxt5a_chunk (x0 : unpacker) (x1 : Z) (x2 : bool) (x3 : bool) (x4 : Z) (x5 : Z * Z * Z * codec * list Z) : agrees (@dxt5a_chunk Checked  x0 x1 x2 x3 x4 x5) (@dxt5a_chunk Wrapping  x0 x1 x2 x3 x4 x5).
Proof. unfold dxt5a_chunk. ag_tac. Qed.
#[export] Hint Resolve ag_dxt5a_chunk : ag.
Lemma ag_unpack_dxt5a (x0 : unpacker) (x1 : codec) (x2 : list Z) (x3 : Z) (x4 : Z) (x5 : Z) (x6 : Z) (x7 : Z) : agrees (@unpack_dxt5a Checked  x0 x1 x2 x3 x4 x5 x6 x7) (@unpack_dxt5a Wrapping  x0 x1 x2 x3 x4 x5 x6 x7).
Proof. unfold unpack_dxt5a. ag_tac. Qed.
#[export] Hint Resolve ag_unpack_dxt5a : ag.
Lemma ag_dxn_block (x0 : unpacker) (x1 : list Z) (x2 : list Z) (x3 : list Z) (x4 : bool) (x5 : Z) (x6 : Z) (x7 : Z * Z * codec * list Z) : agrees (@dxn_block Checked  x0 x1 x2 x3 x4 x5 x6 x7) (@dxn_block Wrapping  x0 x1 x2 x3 x4 x5 x6 x7).
Proof. unfold dxn_block. ag_tac. Qed.
#[export] Hint Resolve ag_dxn_block : ag.
Lemma ag_dxn_chunk (x0 : unpacker) (x1 : Z) (x2 : bool) (x3 : bool) (x4 : Z) (x5 : dxt5_state) : agrees (@dxn_chunk Checked  x0 x1 x2 x3 x4 x5) (@dxn_chunk Wrapping  x0 x1 x2 x3 x4 x5).
Proof. unfold dxn_chunk. ag_tac. Qed.
#[export] Hint Resolve ag_dxn_chunk : ag.
Lemma ag_unpack_dxn (x0 : unpacker) (x1 : codec) (x2 : list Z) (x3 : Z) (x4 : Z) (x5 : Z) (x6 : Z) (x7 : Z) : agrees (@unpack_dxn Checked  x0 x1 x2 x3 x4 x5 x6 x7) (@unpack_dxn Wrapping  x0 x1 x2 x3 x4 x5 x6 x7).
Proof. unfold unpack_dxn. ag_tac. Qed.
#[export] Hint Resolve ag_unpack_dxn : ag.
Lemma ag_unpack_level_2 (x0 : unpacker) (x1 : list Z) (x2 : Z) (x3 : Z) (x4 : Z) (x5 : Z) : agrees (@unpack_level_2 Checked  x0 x1 x2 x3 x4 x5) (@unpack_level_2 Wrapping  x0 x1 x2 x3 x4 x5).
Proof. unfold unpack_level_2. ag_tac. Qed.
#[export] Hint Resolve ag_unpack_level_2 : ag.
Lemma ag_crnd_unpack_level (x0 : unpacker) (x1 : Z) (x2 : Z) (x3 : Z) : agrees (@crnd_unpack_level Checked  x0 x1 x2 x3) (@crnd_unpack_level Wrapping  x0 x1 x2 x3).
Proof. unfold crnd_unpack_level. ag_tac. Qed.
#[export] Hint Resolve ag_crnd_unpack_level : ag.
Lemma ag_crunch_unpack_level (x0 : list Z) (x1 : Z) (x2 : Z) : agrees (@crunch_unpack_level Checked  x0 x1 x2) (@crunch_unpack_level Wrapping  x0 x1 x2).
Proof. unfold crunch_unpack_level. ag_tac. Qed.
#[export] Hint Resolve ag_crunch_unpack_level : ag.
Lemma ag_decode_crunch (x0 : list Z) (x1 : Z) (x2 : Z) (x3 : list Z) : agrees (@decode_crunch Checked  x0 x1 x2 x3) (@decode_crunch Wrapping  x0 x1 x2 x3).
Proof. unfold decode_crunch. ag_tac. Qed.
#[export] Hint Resolve ag_decode_crunch : ag.
Lemma ag_unity_etc_endpoint_step (x0 : bool) (x1 : model) (x2 : Z * list Z * codec) : agrees (@unity_etc_endpoint_step Checked  x0 x1 x2) (@unity_etc_endpoint_step Wrapping  x0 x1 x2).
Proof. unfold unity_etc_endpoint_step. ag_tac. Qed.
#[export] Hint Resolve ag_unity_etc_endpoint_step : ag.
Lemma ag_unity_color_endpoints (x0 : list Z) (x1 : header) : agrees (@unity_color_endpoints Checked  x0 x1) (@unity_color_endpoints Wrapping  x0 x1).
Proof. unfold unity_color_endpoints. ag_tac. Qed.
#[export] Hint Resolve ag_unity_color_endpoints : ag.
Lemma ag_unity_selector_bits (x0 : model) (x1 : Z * codec) : agrees (@unity_selector_bits Checked  x0 x1) (@unity_selector_bits Wrapping  x0 x1).
Proof. unfold unity_selector_bits. ag_tac. Qed.
#[export] Hint Resolve ag_unity_selector_bits : ag.
Lemma ag_etc_selector_bits (x0 : Z) (x1 : Z) : agrees (@etc_selector_bits Checked  x0 x1) (@etc_selector_bits Wrapping  x0 x1).
Proof. unfold etc_selector_bits. ag_tac. Qed.
#[export] Hint Resolve ag_etc_selector_bits : ag.
Lemma ag_etc_selectors (x0 : bool) (x1 : Z) (x2 : Z) (x3 : list Z) : agrees (@etc_selectors Checked  x0 x1 x2 x3) (@etc_selectors Wrapping  x0 x1 x2 x3).
Proof. unfold etc_selectors. ag_tac. Qed.
#[export] Hint Resolve ag_etc_selectors : ag.
Lemma ag_unity_color_selectors (x0 : list Z) (x1 : header) : agrees (@unity_color_selectors Checked  x0 x1) (@unity_color_selectors Wrapping  x0 x1).
Proof. unfold unity_color_selectors. ag_tac. Qed.
#[export] Hint Resolve ag_unity_color_selectors : ag.
Lemma ag_unity_alpha_half (x0 : list Z) (x1 : model) (x2 : Z * codec) : agrees (@unity_alpha_half Checked  x0 x1 x2) (@unity_alpha_half Wrapping  x0 x1 x2).
Proof. unfold unity_alpha_half. ag_tac. Qed.
#[export] Hint Resolve ag_unity_alpha_half : ag.
Lemma ag_unity_alpha_selectors (x0 : list Z) (x1 : header) : agrees (@unity_alpha_selectors Checked  x0 x1) (@unity_alpha_selectors Wrapping  x0 x1).
Proof. unfold unity_alpha_selectors. ag_tac. Qed.
#[export] Hint Resolve ag_unity_alpha_selectors : ag.
Lemma ag_write_or_bits (x0 : list Z) (x1 : Z) (x2 : Z) (x3 : Z) : agrees (@write_or_bits Checked  x0 x1 x2 x3) (@write_or_bits Wrapping  x0 x1 x2 x3).
Proof. unfold write_or_bits. ag_tac. Qed.
#[export] Hint Resolve ag_write_or_bits : ag.
Lemma ag_etc_alpha_value (x0 : model) (x1 : Z) (x2 : list Z * Z * codec) : agrees (@etc_alpha_value Checked  x0 x1 x2) (@etc_alpha_value Wrapping  x0 x1 x2).
Proof. unfold etc_alpha_value. ag_tac. Qed.
#[export] Hint Resolve ag_etc_alpha_value : ag.
Lemma ag_unity_alpha_selectors_etc (x0 : list Z) (x1 : header) : agrees (@unity_alpha_selectors_etc Checked  x0 x1) (@unity_alpha_selectors_etc Wrapping  x0 x1).
Proof. unfold unity_alpha_selectors_etc. ag_tac. Qed.
#[export] Hint Resolve ag_unity_alpha_selectors_etc : ag.
Lemma ag_unity_alpha_selectors_etcs (x0 : list Z) (x1 : header) : agrees (@unity_alpha_selectors_etcs Checked  x0 x1) (@unity_alpha_selectors_etcs Wrapping  x0 x1).
Proof. unfold unity_alpha_selectors_etcs. ag_tac. Qed.
#[export] Hint Resolve ag_unity_alpha_selectors_etcs : ag.
Lemma ag_unity_init (x0 : list Z) (x1 : Z) : agrees (@unity_init Checked  x0 x1) (@unity_init Wrapping  x0 x1).
Proof. unfold unity_init. ag_tac. Qed.
#[export] Hint Resolve ag_unity_init : ag.
Lemma ag_unity_unpack_begin (x0 : list Z) (x1 : Z) : agrees (@unity_unpack_begin Checked  x0 x1) (@unity_unpack_begin Wrapping  x0 x1).
Proof. unfold unity_unpack_begin. ag_tac. Qed.
#[export] Hint Resolve ag_unity_unpack_begin : ag.
Lemma ag_unity_loops (S : Type) (x0 : Z) (x1 : Z) (x2 : Z) (x3 : Z) (x4 : Z) (x5 x5' : (Z -> Z -> bool -> Z -> S -> res S)) (x6 : S) : (forall a0 a1 a2 a3 a4, agrees (x5 a0 a1 a2 a3 a4) (x5' a0 a1 a2 a3 a4)) -> agrees (@unity_loops Checked S x0 x1 x2 x3 x4 x5 x6) (@unity_loops Wrapping S x0 x1 x2 x3 x4 x5' x6).
Proof. intros. unfold unity_loops. ag_tac. Qed.
#[export] Hint Resolve ag_unity_loops : ag.
Lemma ag_unity_reference (x0 : string) (x1 : unpacker) (x2 : Z) (x3 : Z) (x4 : Z) (x5 : list elem) (x6 : codec) : agrees (@unity_reference Checked  x0 x1 x2 x3 x4 x5 x6) (@unity_reference Wrapping  x0 x1 x2 x3 x4 x5 x6).
Proof. unfold unity_reference. ag_tac. Qed.
#[export] Hint Resolve ag_unity_reference : ag.
Lemma ag_unity_advance (x0 : string) (x1 : model) (x2 : Z) (x3 : Z) (x4 : codec) : agrees (@unity_advance Checked  x0 x1 x2 x3 x4) (@unity_advance Wrapping  x0 x1 x2 x3 x4).
Proof. unfold unity_advance. ag_tac. Qed.
#[export] Hint Resolve ag_unity_advance : ag.
Lemma ag_unity_dxt1_block (x0 : unpacker) (x1 : Z) (x2 : Z) (x3 : bool) (x4 : Z) (x5 : Z * Z * list elem * codec * list Z) : agrees (@unity_dxt1_block Checked  x0 x1 x2 x3 x4 x5) (@unity_dxt1_block Wrapping  x0 x1 x2 x3 x4 x5).
Proof. unfold unity_dxt1_block. ag_tac. Qed.
#[export] Hint Resolve ag_unity_dxt1_block : ag.
Lemma ag_unity_unpack_dxt1 (x0 : unpacker) (x1 : codec) (x2 : list Z) (x3 : Z) (x4 : Z) (x5 : Z) : agrees (@unity_unpack_dxt1 Checked  x0 x1 x2 x3 x4 x5) (@unity_unpack_dxt1 Wrapping  x0 x1 x2 x3 x4 x5).
Proof. unfold unity_unpack_dxt1. ag_tac. Qed.
#[export] Hint Resolve ag_unity_unpack_dxt1 : ag.
Lemma ag_unity_dxt5_block (x0 : unpacker) (x1 : Z) (x2 : Z) (x3 : bool) (x4 : Z) (x5 : Z * Z * Z * list elem * codec * list Z) : agrees (@unity_dxt5_block Checked  x0 x1 x2 x3 x4 x5) (@unity_dxt5_block Wrapping  x0 x1 x2 x3 x4 x5).
Proof. unfold unity_dxt5_block. ag_tac. Qed.
#[export] Hint Resolve ag_unity_dxt5_block : ag.
Lemma ag_unity_unpack_dxt5 (x0 : unpacker) (x1 : codec) (x2 : list Z) (x3 : Z) (x4 : Z) (x5 : Z) : agrees (@unity_unpack_dxt5 Checked  x0 x1 x2 x3 x4 x5) (@unity_unpack_dxt5 Wrapping  x0 x1 x2 x3 x4 x5).
Proof. unfold unity_unpack_dxt5. ag_tac. Qed.
#[export] Hint Resolve ag_unity_unpack_dxt5 : ag.
Lemma ag_unity_dxt5a_block (x0 : unpacker) (x1 : Z) (x2 : Z) (x3 : bool) (x4 : Z) (x5 : Z * Z * list elem * codec * list Z) : agrees (@unity_dxt5a_block Checked  x0 x1 x2 x3 x4 x5) (@unity_dxt5a_block Wrapping  x0 x1 x2 x3 x4 x5).
Proof. unfold unity_dxt5a_block. ag_tac. Qed.
#[export] Hint Resolve ag_unity_dxt5a_block : ag.
Lemma ag_unity_unpack_dxt5a (x0 : unpacker) (x1 : codec) (x2 : list Z) (x3 : Z) (x4 : Z) (x5 : Z) : agrees (@unity_unpack_dxt5a Checked  x0 x1 x2 x3 x4 x5) (@unity_unpack_dxt5a Wrapping  x0 x1 x2 x3 x4 x5).
Proof. unfold unity_unpack_dxt5a. ag_tac. Qed.
#[export] Hint Resolve ag_unity_unpack_dxt5a : ag.
Lemma ag_unity_dxn_block (x0 : unpacker) (x1 : Z) (x2 : Z) (x3 : bool) (x4 : Z) (x5 : Z * Z * Z * list elem * codec * list Z) : agrees (@unity_dxn_block Checked  x0 x1 x2 x3 x4 x5) (@unity_dxn_block Wrapping  x0 x1 x2 x3 x4 x5).
Proof. unfold unity_dxn_block. ag_tac. Qed.
#[export] Hint Resolve ag_unity_dxn_block : ag.
Lemma ag_unity_unpack_dxn (x0 : unpacker) (x1 : codec) (x2 : list Z) (x3 : Z) (x4 : Z) (x5 : Z) : agrees (@unity_unpack_dxn Checked  x0 x1 x2 x3 x4 x5) (@unity_unpack_dxn Wrapping  x0 x1 x2 x3 x4 x5).
Proof. unfold unity_unpack_dxn. ag_tac. Qed.
#[export] Hint Resolve ag_unity_unpack_dxn : ag.
Lemma ag_etc_diff (x0 : list Z) (x1 : list Z) : agrees (@etc_diff Checked  x0 x1) (@etc_diff Wrapping  x0 x1).
Proof. unfold etc_diff. ag_tac. Qed.
#[export] Hint Resolve ag_etc_diff : ag.
Lemma ag_etc_block_endpoint (x0 : list Z) (x1 : list Z) (x2 : Z) : agrees (@etc_block_endpoint Checked  x0 x1 x2) (@etc_block_endpoint Wrapping  x0 x1 x2).
Proof. unfold etc_block_endpoint. ag_tac. Qed.
#[export] Hint Resolve ag_etc_block_endpoint : ag.
Lemma ag_unity_etc_reference (x0 : string) (x1 : unpacker) (x2 : Z) (x3 : elem) (x4 : codec) : agrees (@unity_etc_reference Checked  x0 x1 x2 x3 x4) (@unity_etc_reference Wrapping  x0 x1 x2 x3 x4).
Proof. unfold unity_etc_reference. ag_tac. Qed.
#[export] Hint Resolve ag_unity_etc_reference : ag.
Lemma ag_unity_etc1_block (x0 : unpacker) (x1 : Z) (x2 : Z) (x3 : bool) (x4 : Z) (x5 : Z * Z * list elem * codec * list Z) : agrees (@unity_etc1_block Checked  x0 x1 x2 x3 x4 x5) (@unity_etc1_block Wrapping  x0 x1 x2 x3 x4 x5).
Proof. unfold unity_etc1_block. ag_tac. Qed.
#[export] Hint Resolve ag_unity_etc1_block : ag.
Lemma ag_unity_unpack_etc1 (x0 : unpacker) (x1 : codec) (x2 : list Z) (x3 : Z) (x4 : Z) (x5 : Z) : agrees (@unity_unpack_etc1 Checked  x0 x1 x2 x3 x4 x5) (@unity_unpack_etc1 Wrapping  x0 x1 x2 x3 x4 x5).
Proof. unfold unity_unpack_etc1. ag_tac. Qed.
#[export] Hint Resolve ag_unity_unpack_etc1 : ag.
Lemma ag_unity_etc2a_block (x0 : unpacker) (x1 : Z) (x2 : Z) (x3 : bool) (x4 : Z) (x5 : Z * Z * Z * Z * list elem * codec * list Z) : agrees (@unity_etc2a_block Checked  x0 x1 x2 x3 x4 x5) (@unity_etc2a_block Wrapping  x0 x1 x2 x3 x4 x5).
Proof. unfold unity_etc2a_block. ag_tac. Qed.
#[export] Hint Resolve ag_unity_etc2a_block : ag.
Lemma ag_unity_unpack_etc2a (x0 : unpacker) (x1 : codec) (x2 : list Z) (x3 : Z) (x4 : Z) (x5 : Z) : agrees (@unity_unpack_etc2a Checked  x0 x1 x2 x3 x4 x5) (@unity_unpack_etc2a Wrapping  x0 x1 x2 x3 x4 x5).
Proof. unfold unity_unpack_etc2a. ag_tac. Qed.
#[export] Hint Resolve ag_unity_unpack_etc2a : ag.
Lemma ag_unity_unpack_level_2 (x0 : unpacker) (x1 : list Z) (x2 : Z) (x3 : Z) (x4 : Z) (x5 : Z) : agrees (@unity_unpack_level_2 Checked  x0 x1 x2 x3 x4 x5) (@unity_unpack_level_2 Wrapping  x0 x1 x2 x3 x4 x5).
Proof. unfold unity_unpack_level_2. ag_tac. Qed.
#[export] Hint Resolve ag_unity_unpack_level_2 : ag.
Lemma ag_unity_crnd_unpack_level (x0 : unpacker) (x1 : Z) (x2 : Z) (x3 : Z) : agrees (@unity_crnd_unpack_level Checked  x0 x1 x2 x3) (@unity_crnd_unpack_level Wrapping  x0 x1 x2 x3).
Proof. unfold unity_crnd_unpack_level. ag_tac. Qed.
#[export] Hint Resolve ag_unity_crnd_unpack_level : ag.
Lemma ag_unity_crunch_unpack_level (x0 : list Z) (x1 : Z) (x2 : Z) : agrees (@unity_crunch_unpack_level Checked  x0 x1 x2) (@unity_crunch_unpack_level Wrapping  x0 x1 x2).
Proof. unfold unity_crunch_unpack_level. ag_tac. Qed.
#[export] Hint Resolve ag_unity_crunch_unpack_level : ag.
Lemma ag_decode_unity_crunch (x0 : list Z) (x1 : Z) (x2 : Z) (x3 : list Z) : agrees (@decode_unity_crunch Checked  x0 x1 x2 x3) (@decode_unity_crunch Wrapping  x0 x1 x2 x3).
Proof. unfold decode_unity_crunch. ag_tac. Qed.
#[export] Hint Resolve ag_decode_unity_crunch : ag.
Lemma ag_py_size (x0 : Z) (x1 : Z) : agrees (@py_size Checked  x0 x1) (@py_size Wrapping  x0 x1).
Proof. unfold py_size. ag_tac. Qed.
#[export] Hint Resolve ag_py_size : ag.
Lemma ag_pybind (x0 x0' : (list Z -> Z -> Z -> list Z -> res (status * list Z))) (x1 : list Z) (x2 : Z) (x3 : Z) (x4 : list Z) : (forall a0 a1 a2 a3, agrees (x0 a0 a1 a2 a3) (x0' a0 a1 a2 a3)) -> agrees (@pybind Checked  x0 x1 x2 x3 x4) (@pybind Wrapping  x0' x1 x2 x3 x4).
Proof. intros. unfold pybind. ag_tac. Qed.
#[export] Hint Resolve ag_pybind : ag.
Lemma ag_py_decode_astc (x0 : list Z) (x1 : Z) (x2 : Z) (x3 : Z) (x4 : Z) (x5 : list Z) : agrees (@py_decode_astc Checked  x0 x1 x2 x3 x4 x5) (@py_decode_astc Wrapping  x0 x1 x2 x3 x4 x5).
Proof. unfold py_decode_astc. ag_tac. Qed.
#[export] Hint Resolve ag_py_decode_astc : ag.
Lemma ag_py_decode_atc_rgb4 (x0 : list Z) (x1 : Z) (x2 : Z) (x3 : list Z) : agrees (@py_decode_atc_rgb4 Checked  x0 x1 x2 x3) (@py_decode_atc_rgb4 Wrapping  x0 x1 x2 x3).
Proof. unfold py_decode_atc_rgb4. ag_tac. Qed.
#[export] Hint Resolve ag_py_decode_atc_rgb4 : ag.
Lemma ag_py_decode_atc_rgba8 (x0 : list Z) (x1 : Z) (x2 : Z) (x3 : list Z) : agrees (@py_decode_atc_rgba8 Checked  x0 x1 x2 x3) (@py_decode_atc_rgba8 Wrapping  x0 x1 x2 x3).
Proof. unfold py_decode_atc_rgba8. ag_tac. Qed.
#[export] Hint Resolve ag_py_decode_atc_rgba8 : ag.
Lemma ag_py_decode_astc_sized (x0 : Z) (x1 : Z) (x2 : list Z) (x3 : Z) (x4 : Z) (x5 : list Z) : agrees (@py_decode_astc_sized Checked  x0 x1 x2 x3 x4 x5) (@py_decode_astc_sized Wrapping  x0 x1 x2 x3 x4 x5).
Proof. unfold py_decode_astc_sized. ag_tac. Qed.
#[export] Hint Resolve ag_py_decode_astc_sized : ag.
Lemma ag_py_decode_bc1 (x0 : list Z) (x1 : Z) (x2 : Z) (x3 : list Z) : agrees (@py_decode_bc1 Checked  x0 x1 x2 x3) (@py_decode_bc1 Wrapping  x0 x1 x2 x3).
Proof. unfold py_decode_bc1. ag_tac. Qed.
#[export] Hint Resolve ag_py_decode_bc1 : ag.
Lemma ag_py_decode_bc1a (x0 : list Z) (x1 : Z) (x2 : Z) (x3 : list Z) : agrees (@py_decode_bc1a Checked  x0 x1 x2 x3) (@py_decode_bc1a Wrapping  x0 x1 x2 x3).
Proof. unfold py_decode_bc1a. ag_tac. Qed.
#[export] Hint Resolve ag_py_decode_bc1a : ag.
Lemma ag_py_decode_bc2 (x0 : list Z) (x1 : Z) (x2 : Z) (x3 : list Z) : agrees (@py_decode_bc2 Checked  x0 x1 x2 x3) (@py_decode_bc2 Wrapping  x0 x1 x2 x3).
Proof. unfold py_decode_bc2. ag_tac. Qed.
#[export] Hint Resolve ag_py_decode_bc2 : ag.
Lemma ag_py_decode_bc3 (x0 : list Z) (x1 : Z) (x2 : Z) (x3 : list Z) : agrees (@py_decode_bc3 Checked  x0 x1 x2 x3) (@py_decode_bc3 Wrapping  x0 x1 x2 x3).
Proof. unfold py_decode_bc3. ag_tac. Qed.
#[export] Hint Resolve ag_py_decode_bc3 : ag.
Lemma ag_py_decode_bc4 (x0 : list Z) (x1 : Z) (x2 : Z) (x3 : list Z) : agrees (@py_decode_bc4 Checked  x0 x1 x2 x3) (@py_decode_bc4 Wrapping  x0 x1 x2 x3).
Proof. unfold py_decode_bc4. ag_tac. Qed.
#[export] Hint Resolve ag_py_decode_bc4 : ag.
Lemma ag_py_decode_bc5 (x0 : list Z) (x1 : Z) (x2 : Z) (x3 : list Z) : agrees (@py_decode_bc5 Checked  x0 x1 x2 x3) (@py_decode_bc5 Wrapping  x0 x1 x2 x3).
Proof. unfold py_decode_bc5. ag_tac. Qed.
#[export] Hint Resolve ag_py_decode_bc5 : ag.
Lemma ag_py_decode_bc6_signed (x0 : list Z) (x1 : Z) (x2 : Z) (x3 : list Z) : agrees (@py_decode_bc6_signed Checked  x0 x1 x2 x3) (@py_decode_bc6_signed Wrapping  x0 x1 x2 x3).
Proof. unfold py_decode_bc6_signed. ag_tac. Qed.
#[export] Hint Resolve ag_py_decode_bc6_signed : ag.
Lemma ag_py_decode_bc6_unsigned (x0 : list Z) (x1 : Z) (x2 : Z) (x3 : list Z) : agrees (@py_decode_bc6_unsigned Checked  x0 x1 x2 x3) (@py_decode_bc6_unsigned Wrapping  x0 x1 x2 x3).
Proof. unfold py_decode_bc6_unsigned. ag_tac. Qed.
#[export] Hint Resolve ag_py_decode_bc6_unsigned : ag.
Lemma ag_py_decode_bc7 (x0 : list Z) (x1 : Z) (x2 : Z) (x3 : list Z) : agrees (@py_decode_bc7 Checked  x0 x1 x2 x3) (@py_decode_bc7 Wrapping  x0 x1 x2 x3).
Proof. unfold py_decode_bc7. ag_tac. Qed.
#[export] Hint Resolve ag_py_decode_bc7 : ag.
Lemma ag_py_decode_etc1 (x0 : list Z) (x1 : Z) (x2 : Z) (x3 : list Z) : agrees (@py_decode_etc1 Checked  x0 x1 x2 x3) (@py_decode_etc1 Wrapping  x0 x1 x2 x3).
Proof. unfold py_decode_etc1. ag_tac. Qed.
#[export] Hint Resolve ag_py_decode_etc1 : ag.
Lemma ag_py_decode_etc2_rgb (x0 : list Z) (x1 : Z) (x2 : Z) (x3 : list Z) : agrees (@py_decode_etc2_rgb Checked  x0 x1 x2 x3) (@py_decode_etc2_rgb Wrapping  x0 x1 x2 x3).
Proof. unfold py_decode_etc2_rgb. ag_tac. Qed.
#[export] Hint Resolve ag_py_decode_etc2_rgb : ag.
Lemma ag_py_decode_etc2_rgba1 (x0 : list Z) (x1 : Z) (x2 : Z) (x3 : list Z) : agrees (@py_decode_etc2_rgba1 Checked  x0 x1 x2 x3) (@py_decode_etc2_rgba1 Wrapping  x0 x1 x2 x3).
Proof. unfold py_decode_etc2_rgba1. ag_tac. Qed.
#[export] Hint Resolve ag_py_decode_etc2_rgba1 : ag.
Lemma ag_py_decode_etc2_rgba8 (x0 : list Z) (x1 : Z) (x2 : Z) (x3 : list Z) : agrees (@py_decode_etc2_rgba8 Checked  x0 x1 x2 x3) (@py_decode_etc2_rgba8 Wrapping  x0 x1 x2 x3).
Proof. unfold py_decode_etc2_rgba8. ag_tac. Qed.
#[export] Hint Resolve ag_py_decode_etc2_rgba8 : ag.
Lemma ag_py_decode_eacr (x0 : list Z) (x1 : Z) (x2 : Z) (x3 : list Z) : agrees (@py_decode_eacr Checked  x0 x1 x2 x3) (@py_decode_eacr Wrapping  x0 x1 x2 x3).
Proof. unfold py_decode_eacr. ag_tac. Qed.
#[export] Hint Resolve ag_py_decode_eacr : ag.
Lemma ag_py_decode_eacr_signed (x0 : list Z) (x1 : Z) (x2 : Z) (x3 : list Z) : agrees (@py_decode_eacr_signed Checked  x0 x1 x2 x3) (@py_decode_eacr_signed Wrapping  x0 x1 x2 x3).
Proof. unfold py_decode_eacr_signed. ag_tac. Qed.
#[export] Hint Resolve ag_py_decode_eacr_signed : ag.
Lemma ag_py_decode_eacrg (x0 : list Z) (x1 : Z) (x2 : Z) (x3 : list Z) : agrees (@py_decode_eacrg Checked  x0 x1 x2 x3) (@py_decode_eacrg Wrapping  x0 x1 x2 x3).
Proof. unfold py_decode_eacrg. ag_tac. Qed.
#[export] Hint Resolve ag_py_decode_eacrg : ag.
Lemma ag_py_decode_eacrg_signed (x0 : list Z) (x1 : Z) (x2 : Z) (x3 : list Z) : agrees (@py_decode_eacrg_signed Checked  x0 x1 x2 x3) (@py_decode_eacrg_signed Wrapping  x0 x1 x2 x3).
Proof. unfold py_decode_eacrg_signed. ag_tac. Qed.
#[export] Hint Resolve ag_py_decode_eacrg_signed : ag.
Lemma ag_py_decode_pvrtc_2bpp (x0 : list Z) (x1 : Z) (x2 : Z) (x3 : list Z) : agrees (@py_decode_pvrtc_2bpp Checked  x0 x1 x2 x3) (@py_decode_pvrtc_2bpp Wrapping  x0 x1 x2 x3).
Proof. unfold py_decode_pvrtc_2bpp. ag_tac. Qed.
#[export] Hint Resolve ag_py_decode_pvrtc_2bpp : ag.
Lemma ag_py_decode_pvrtc_4bpp (x0 : list Z) (x1 : Z) (x2 : Z) (x3 : list Z) : agrees (@py_decode_pvrtc_4bpp Checked  x0 x1 x2 x3) (@py_decode_pvrtc_4bpp Wrapping  x0 x1 x2 x3).
Proof. unfold py_decode_pvrtc_4bpp. ag_tac. Qed.
#[export] Hint Resolve ag_py_decode_pvrtc_4bpp : ag.
Lemma ag_py_decode_crunch (x0 : list Z) (x1 : Z) (x2 : Z) (x3 : list Z) : agrees (@py_decode_crunch Checked  x0 x1 x2 x3) (@py_decode_crunch Wrapping  x0 x1 x2 x3).
Proof. unfold py_decode_crunch. ag_tac. Qed.
#[export] Hint Resolve ag_py_decode_crunch : ag.
Lemma ag_py_decode_unity_crunch (x0 : list Z) (x1 : Z) (x2 : Z) (x3 : list Z) : agrees (@py_decode_unity_crunch Checked  x0 x1 x2 x3) (@py_decode_unity_crunch Wrapping  x0 x1 x2 x3).
Proof. unfold py_decode_unity_crunch. ag_tac. Qed.
#[export] Hint Resolve ag_py_decode_unity_crunch : ag.
