(** * Unpacking a crunch level keeps the size of the output, and its elements bytes. *)
From Verif Require Import Base BaseLemmas ModelCrn ModelCrunch ModelUnity ProofAstcRange ProofBc6.

Definition keeps (L : Z) (dst : list Z) : Prop := bytes dst /\ zlen dst = L.

Lemma upd_keep L dst i v dst' : keeps L dst -> 0 <= v < 256 -> upd dst i v = Ok dst' -> keeps L dst'.
Proof.
  intros [Hb Hl] Hv E. destruct (upd_inv _ _ _ _ E) as [Hi ->]. split; [|rewrite zlen_replace_nth; exact Hl].
  unfold bytes in *. eapply upd_forall; [exact Hb| |exact E]. exact Hv.
Qed.
Lemma u8_byte v : 0 <= u8 v < 256.
Proof. apply Z.mod_pos_bound. lia. Qed.

(** Take one step through a computation that returned normally. *)
Ltac step H :=
  match type of H with
  | bind ?e _ = Ok _ => let E := fresh "E" in destruct e eqn:E; cbn [bind] in H; [|discriminate|discriminate]
  | (if ?b then _ else _) = Ok _ => destruct b
  | (let (_, _) := ?x in _) = Ok _ => destruct x
  | Ok _ = Ok _ => injection H as H; subst
  | Err _ = Ok _ => discriminate
  | Panic = Ok _ => discriminate
  end.

Lemma write_int_keep m L dst i v dst' : keeps L dst -> write_int m dst i v = Ok dst' -> keeps L dst'.
Proof.
  intros K H. unfold write_int in H. step H. step H. apply (upd_keep L) in E0; [|exact K|apply u8_byte].
  step H. apply (upd_keep L) in E1; [|exact E0|apply u8_byte]. step H. apply (upd_keep L) in E2; [|exact E1|apply u8_byte].
  eapply upd_keep; [exact E2|apply u8_byte|exact H].
Qed.
Lemma write_alpha_keep m u L dst i e w dst' : keeps L dst -> write_alpha m u dst i e w = Ok dst' -> keeps L dst'.
Proof.
  intros K H. unfold write_alpha in H. destruct w as [[w0 w1] w2]. step H. eapply write_int_keep; [|exact H]. eapply write_int_keep; [exact K|exact E].
Qed.

Ltac keep_all L :=
  repeat match goal with
  | K : keeps L ?d, E : write_int _ ?d _ _ = Ok ?d' |- _ => assert (keeps L d') by (eapply write_int_keep; [exact K|exact E]); clear E
  | K : keeps L ?d, E : write_alpha _ _ ?d _ _ _ = Ok ?d' |- _ => assert (keeps L d') by (eapply write_alpha_keep; [exact K|exact E]); clear E
  end.

Lemma for_list_keep {A S} (P : S -> Prop) (f : A -> S -> res S) : forall l s s',
  P s -> (forall x s s', In x l -> P s -> f x s = Ok s' -> P s') -> for_list l f s = Ok s' -> P s'.
Proof.
  induction l as [|x l IH]; intros s s' H Hf E; cbn [for_list] in E; [injection E as <-; exact H|].
  step E. eapply (IH a); [|intros; eapply Hf; eauto; right; assumption|exact E]. eapply Hf; [left; reflexivity|exact H|exact E0].
Qed.

(** ** Crunch *)
Lemma chunk_loops_keep {S} (P : S -> Prop) m bpb pitch bx by_ cx cy faces body st st' :
  P st -> (forall a b d s s', P s -> body a b d s = Ok s' -> P s') ->
  chunk_loops m bpb pitch bx by_ cx cy faces body st = Ok st' -> P st'.
Proof.
  intros H0 Hb H. unfold chunk_loops in H. step H. destruct a as [r a]. injection H as <-.
  apply (for_range_keep (fun x : Z * S => P (snd x))) in E; [exact E|exact H0|]. clear E H0. intros _ s s' _ K H.
  apply (for_range_keep (fun x : Z * S => P (snd x))) in H; [exact H|exact K|]. clear H K s s'. intros y [row s] s' _ K H. cbn [snd] in K.
  step H. step H. destruct a1 as [d1 s1]. step H. step H. injection H as <-. cbn [snd].
  apply (for_list_keep (fun x : Z * S => P (snd x))) in E0; [exact E0|exact K|]. clear - Hb.
  intros x [d s] s' _ K H. cbn [snd] in K. step H. step H. injection H as <-. cbn [snd]. eapply Hb; eauto.
Qed.
Lemma chunk_blocks_keep {S} (P : S -> Prop) m bpb pitch d a b blk st st' :
  P st -> (forall v k pd s s', P s -> blk v k pd s = Ok s' -> P s') ->
  chunk_blocks m bpb pitch d a b blk st = Ok st' -> P st'.
Proof.
  intros H0 Hb H. unfold chunk_blocks in H. step H. destruct a0 as [r s1]. injection H as <-.
  apply (for_range_keep (fun x : Z * S => P (snd x))) in E; [exact E|exact H0|]. clear E H0. intros y s s' _ K H.
  step H. destruct a0 as [pd s2]. step H. step H. injection H as <-. cbn [snd].
  apply (for_range_keep (fun x : Z * S => P (snd x))) in E; [exact E|exact K|]. clear - Hb.
  intros x [pd s] s' _ K H. cbn [snd] in K. step H. injection H as <-. cbn [snd]. eapply Hb; eauto.
Qed.

Section Crunch.
Context (m : build) (u : unpacker) (L : Z).

Lemma dxt5_block_keep ceps aeps tiles v k pd s s' : keeps L (snd s) -> dxt5_block m u ceps aeps tiles v k pd s = Ok s' -> keeps L (snd s').
Proof.
  destruct s as [[[a b] c] dst]. cbn [snd]. intros K H. unfold dxt5_block in H. repeat step H; cbn [snd]; keep_all L; assumption.
Qed.
Lemma dxt5a_block_keep aeps tiles v k pd s s' : keeps L (snd s) -> dxt5a_block m u aeps tiles v k pd s = Ok s' -> keeps L (snd s').
Proof.
  destruct s as [[a c] dst]. cbn [snd]. intros K H. unfold dxt5a_block in H. repeat step H; cbn [snd]; keep_all L; assumption.
Qed.
Lemma dxn_block_keep aeps tiles e v k pd s s' : keeps L (snd s) -> dxn_block m u aeps tiles e v k pd s = Ok s' -> keeps L (snd s').
Proof.
  destruct s as [[[a b] c] dst]. cbn [snd]. intros K H. unfold dxn_block in H. repeat step H; cbn [snd]; keep_all L; assumption.
Qed.
Lemma dxt1_full_keep eps tiles k pd s s' : keeps L (snd s) -> dxt1_full_block m u eps tiles k pd s = Ok s' -> keeps L (snd s').
Proof.
  destruct s as [[a c] dst]. cbn [snd]. intros K H. unfold dxt1_full_block in H. repeat step H; cbn [snd]; keep_all L; assumption.
Qed.
Lemma dxt1_part_keep eps tiles v k pd s s' : keeps L (snd s) -> dxt1_part_block m u eps tiles v k pd s = Ok s' -> keeps L (snd s').
Proof.
  destruct s as [[a c] dst]. cbn [snd]. intros K H. unfold dxt1_part_block in H. repeat step H; cbn [snd]; keep_all L; assumption.
Qed.

Lemma dxt1_chunk_keep pitch a b d s s' : keeps L (snd s) -> dxt1_chunk m u pitch a b d s = Ok s' -> keeps L (snd s').
Proof.
  destruct s as [[[[bits pe] ps] cd] dst]. cbn [snd]. intros K H. unfold dxt1_chunk in H.
  step H. destruct a0 as [[e bits1] cd1]. step H. step H. destruct a1 as [[eps pe1] cd2]. step H.
  destruct (negb b && negb a).
  - step H. apply dxt1_full_keep in E3; [|exact K]. step H. apply dxt1_full_keep in E4; [|exact E3].
    step H. apply dxt1_full_keep in E5; [|exact E4]. step H. apply dxt1_full_keep in E6; [|exact E5]. destruct a5 as [[ps1 cd3] dst1]. injection H as <-. exact E6.
  - step H. destruct a2 as [[ps1 cd3] dst1]. injection H as <-. cbn [snd].
    apply (for_range_keep (fun x : Z * codec * list Z => keeps L (snd x))) in E3; [exact E3|exact K|]. intros i s s' _ K' H. step H. step H.
    apply (for_range_keep (fun x : Z * codec * list Z => keeps L (snd x))) in H; [exact H|exact K'|]. intros j t t' _ K2 H2. eapply dxt1_part_keep; eauto.
Qed.
Lemma dxt5_chunk_keep pitch a b d s s' : keeps L (snd s) -> dxt5_chunk m u pitch a b d s = Ok s' -> keeps L (snd s').
Proof.
  destruct s as [[[[[[bits x1] x2] x3] x4] cd] dst]. cbn [snd]. intros K H. unfold dxt5_chunk in H.
  step H. destruct a0 as [[e bits1] cd1]. step H. step H. step H. destruct a2 as [[eps pe1] cd2]. step H. destruct a2 as [[eps2 pe2] cd3]. step H. destruct a2 as [[[y1 y2] y3] dst1]. injection H as <-. cbn [snd].
  apply (chunk_blocks_keep (fun x : Z * Z * codec * list Z => keeps L (snd x))) in E4; [exact E4|exact K|]. intros. eapply dxt5_block_keep; eauto.
Qed.
Lemma dxn_chunk_keep pitch a b d s s' : keeps L (snd s) -> dxn_chunk m u pitch a b d s = Ok s' -> keeps L (snd s').
Proof.
  destruct s as [[[[[[bits x1] x2] x3] x4] cd] dst]. cbn [snd]. intros K H. unfold dxn_chunk in H.
  step H. destruct a0 as [[e bits1] cd1]. step H. step H. step H. destruct a2 as [[eps pe1] cd2]. step H. destruct a2 as [[eps2 pe2] cd3]. step H. destruct a2 as [[[y1 y2] y3] dst1]. injection H as <-. cbn [snd].
  apply (chunk_blocks_keep (fun x : Z * Z * codec * list Z => keeps L (snd x))) in E4; [exact E4|exact K|]. intros. eapply dxn_block_keep; eauto.
Qed.
Lemma dxt5a_chunk_keep pitch a b d s s' : keeps L (snd s) -> dxt5a_chunk m u pitch a b d s = Ok s' -> keeps L (snd s').
Proof.
  destruct s as [[[[bits x1] x2] cd] dst]. cbn [snd]. intros K H. unfold dxt5a_chunk in H.
  step H. destruct a0 as [[e bits1] cd1]. step H. step H. step H. destruct a2 as [[eps pe1] cd2]. step H. destruct a2 as [[y1 y3] dst1]. injection H as <-. cbn [snd].
  apply (chunk_blocks_keep (fun x : Z * codec * list Z => keeps L (snd x))) in E3; [exact E3|exact K|]. intros. eapply dxt5a_block_keep; eauto.
Qed.
End Crunch.

Lemma zeros_keep n : 0 <= n -> keeps n (repeat 0 (Z.to_nat n)).
Proof.
  intros H. split; [|unfold zlen; rewrite repeat_length; lia]. apply Forall_forall. intros x Hx. apply repeat_spec in Hx. subst. split; lia.
Qed.

Lemma unpack_level_2_keep m u src size dst_size pitch level out : 0 <= dst_size * h_faces (u_header u) ->
  unpack_level_2 m u src size dst_size pitch level = Ok out -> keeps (dst_size * h_faces (u_header u)) out.
Proof.
  intros Hn H. unfold unpack_level_2 in H. step H. step H. destruct (dst_size <? a0); [discriminate|]. step H.
  pose proof (zeros_keep _ Hn) as K. set (L := dst_size * h_faces (u_header u)) in *.
  repeat match type of H with (if ?b then _ else _) = Ok _ => destruct b end; [..|discriminate].
  - unfold unpack_dxt1 in H. step H. destruct a2 as [x dst]. injection H as <-. change (keeps L (snd (x, dst))).
    eapply (chunk_loops_keep (fun s : dxt1_state => keeps L (snd s))); [| |exact E2]; [exact K|]. intros. eapply dxt1_chunk_keep; eauto.
  - unfold unpack_dxt5 in H. step H. destruct a2 as [x dst]. injection H as <-. change (keeps L (snd (x, dst))).
    eapply (chunk_loops_keep (fun s : dxt5_state => keeps L (snd s))); [| |exact E2]; [exact K|]. intros. eapply dxt5_chunk_keep; eauto.
  - unfold unpack_dxt5a in H. step H. destruct a2 as [x dst]. injection H as <-. change (keeps L (snd (x, dst))).
    eapply (chunk_loops_keep (fun s : dxt1_state => keeps L (snd s))); [| |exact E2]; [exact K|]. intros. eapply dxt5a_chunk_keep; eauto.
  - unfold unpack_dxn in H. step H. destruct a2 as [x dst]. injection H as <-. change (keeps L (snd (x, dst))).
    eapply (chunk_loops_keep (fun s : dxt5_state => keeps L (snd s))); [| |exact E2]; [exact K|]. intros. eapply dxn_chunk_keep; eauto.
Qed.

(** ** Unity crunch *)
Lemma unity_loops_keep {S} (P : S -> Prop) m words pitch ow oh faces body st st' :
  P st -> (forall y x v d s s', P s -> body y x v d s = Ok s' -> P s') ->
  unity_loops m words pitch ow oh faces body st = Ok st' -> P st'.
Proof.
  intros H0 Hb H. unfold unity_loops in H. step H. step H. destruct a0 as [r a0]. injection H as <-.
  apply (for_range_keep (fun x : Z * S => P (snd x))) in E0; [exact E0|exact H0|]. clear E0 H0. intros _ s s' _ K H.
  apply (for_range_keep (fun x : Z * S => P (snd x))) in H; [exact H|exact K|]. clear H K s s'. intros y [row s] s' _ K H. cbn [snd] in K.
  step H. destruct a1 as [[v d] s1]. step H. injection H as <-. cbn [snd].
  apply (for_range_keep (fun x : bool * Z * S => P (snd x))) in E0; [exact E0|exact K|]. clear - Hb.
  intros x [[v d] s] s' _ K H. cbn [snd] in K. step H. step H. injection H as <-. cbn [snd]. eapply Hb; eauto.
Qed.

Lemma idx_byte l i v : bytes l -> idx l i = Ok v -> 0 <= v < 256.
Proof. intros Hb E. apply idx_in in E. unfold bytes in Hb. rewrite Forall_forall in Hb. exact (Hb v E). Qed.
Lemma le4_bytes v : bytes (le4 v).
Proof. unfold le4. repeat (constructor; [apply u8_byte|]). constructor. Qed.
Lemma write_bytes4_keep L dst pos b dst' : keeps L dst -> bytes b -> write_bytes4 dst pos b = Ok dst' -> keeps L dst'.
Proof.
  intros K Hb H. unfold write_bytes4 in H. step H. apply (idx_byte _ _ _ Hb) in E. step H. apply (upd_keep L) in E0; [|exact K|exact E].
  step H. apply (idx_byte _ _ _ Hb) in E1. step H. apply (upd_keep L) in E2; [|exact E0|exact E1].
  step H. apply (idx_byte _ _ _ Hb) in E3. step H. apply (upd_keep L) in E4; [|exact E2|exact E3].
  step H. apply (idx_byte _ _ _ Hb) in E5. eapply upd_keep; eauto.
Qed.
Lemma lor_byte a b : 0 <= a < 256 -> 0 <= b < 256 -> 0 <= Z.lor a b < 256.
Proof. intros. change 256 with (2 ^ 8). apply lor_bound; lia. Qed.

Lemma shr_byte v n : 0 <= n -> 0 <= v < 256 -> 0 <= Z.shiftr v n < 256.
Proof.
  intros Hn H. rewrite shr_div by lia. split; [apply Z.div_pos; [lia|apply Z.pow_pos_nonneg; lia]|].
  apply Z.div_lt_upper_bound; [apply Z.pow_pos_nonneg; lia|]. assert (1 <= 2 ^ n) by (apply (Z.pow_le_mono_r 2 0 n); lia). nia.
Qed.
Lemma land_byte v n : 0 <= v < 256 -> 0 <= n -> 0 <= Z.land v n < 256.
Proof.
  intros H Hn. split; [apply Z.land_nonneg; lia|].
  assert (Z.land v n <= v); [|lia]. apply Z.ldiff_le; [lia|]. apply Z.bits_inj'. intros i Hi. rewrite Z.ldiff_spec, Z.land_spec, Z.bits_0.
  destruct (Z.testbit v i), (Z.testbit n i); reflexivity.
Qed.
Lemma etc_endpoint_bytes m e0 e1 flip be : bytes e0 -> bytes e1 -> 0 <= flip < 256 -> etc_block_endpoint m e0 e1 flip = Ok be -> bytes be.
Proof.
  intros H0 H1 Hf H. unfold etc_block_endpoint in H. step H. step H.
  assert (bytes a0) as Ha.
  { apply (for_range_keep bytes) in E0; [exact E0|repeat (constructor; [unfold is_byte; lia|]); constructor|]. intros c s s' _ Hs G. step G.
    apply (idx_byte _ _ _ H0) in E1. step G. apply (idx_byte _ _ _ H1) in E2. unfold bytes in *. eapply upd_forall; [exact Hs| |exact G].
    destruct a; apply lor_byte; try apply u8_byte; [apply land_byte; [apply u8_byte|lia]|apply shr_byte; lia]. }
  step H. step H. unfold bytes in *. eapply upd_forall; [exact Ha| |exact H]. apply lor_byte; [|exact Hf].
  apply lor_byte; [apply lor_byte; apply u8_byte|]. destruct a; cbn; lia.
Qed.
Lemma flip_byte r : 0 <= r < 256 -> 0 <= Z.lxor (Z.shiftr (Z.shiftr r 2) 1) 1 < 256.
Proof.
  intros H. rewrite Z.shiftr_shiftr by lia. pose proof (shr_byte r 3 ltac:(lia) H) as K. change (2 + 1) with 3. set (x := Z.shiftr r 3) in *. clearbody x.
  split; [apply Z.lxor_nonneg; split; lia|]. destruct (Z.eq_dec (Z.lxor x 1) 0) as [->|N]; [lia|]. apply (Z.log2_lt_pow2 _ 8); [pose proof (Z.lxor_nonneg x 1); lia|].
  eapply Z.le_lt_trans; [apply Z.log2_lxor; lia|]. apply Z.max_lub_lt; [|reflexivity]. destruct (Z.eq_dec x 0) as [->|]; [reflexivity|]. apply Z.log2_lt_pow2; lia.
Qed.

Section Unity.
Context (m : build) (u : unpacker) (L : Z).

Lemma unity_dxt1_keep y x v pos s s' : keeps L (snd s) -> unity_dxt1_block m u y x v pos s = Ok s' -> keeps L (snd s').
Proof.
  destruct s as [[[[ce g] buf] cd] dst]. cbn [snd]. intros K H. unfold unity_dxt1_block in H. repeat step H; cbn [snd]; keep_all L; assumption.
Qed.
Lemma unity_dxt5_keep y x v pos s s' : keeps L (snd s) -> unity_dxt5_block m u y x v pos s = Ok s' -> keeps L (snd s').
Proof.
  destruct s as [[[[[ce ae] g] buf] cd] dst]. cbn [snd]. intros K H. unfold unity_dxt5_block in H. repeat step H; cbn [snd]; keep_all L; assumption.
Qed.
Lemma unity_dxt5a_keep y x v pos s s' : keeps L (snd s) -> unity_dxt5a_block m u y x v pos s = Ok s' -> keeps L (snd s').
Proof.
  destruct s as [[[[ae g] buf] cd] dst]. cbn [snd]. intros K H. unfold unity_dxt5a_block in H. repeat step H; cbn [snd]; keep_all L; assumption.
Qed.
Lemma unity_dxn_keep y x v pos s s' : keeps L (snd s) -> unity_dxn_block m u y x v pos s = Ok s' -> keeps L (snd s').
Proof.
  destruct s as [[[[[ce ae] g] buf] cd] dst]. cbn [snd]. intros K H. unfold unity_dxn_block in H. repeat step H; cbn [snd]; keep_all L; assumption.
Qed.
Lemma etc_reference_byte msg y b cd r b' cd' : unity_etc_reference m msg u y b cd = Ok (r, b', cd') -> 0 <= r < 256.
Proof.
  unfold unity_etc_reference. intros H. step H; [injection H as <- _ _; apply u8_byte|]. step H. destruct a as [s c]. injection H as <- _ _.
  apply lor_byte; [apply land_byte; [apply u8_byte|lia]|]. apply land_byte; [|lia]. apply shr_byte; [lia|apply u8_byte].
Qed.
Ltac keep_etc :=
  match goal with
  | E : unity_etc_reference _ _ _ _ _ _ = Ok (?r, _, _), F : etc_block_endpoint _ _ _ _ = Ok ?be |- _ =>
    assert (bytes be) by (eapply etc_endpoint_bytes; [apply le4_bytes|apply le4_bytes|apply flip_byte; eapply etc_reference_byte; exact E|exact F])
  end;
  repeat match goal with
  | K : keeps L ?d, E : write_int _ ?d _ _ = Ok ?d' |- _ => assert (keeps L d') by (eapply write_int_keep; [exact K|exact E]); clear E
  | K : keeps L ?d, E : write_alpha _ _ ?d _ _ _ = Ok ?d' |- _ => assert (keeps L d') by (eapply write_alpha_keep; [exact K|exact E]); clear E
  | K : keeps L ?d, B : bytes ?be, E : write_bytes4 ?d _ ?be = Ok ?d' |- _ => assert (keeps L d') by (eapply write_bytes4_keep; [exact K|exact B|exact E]); clear E
  end.
Lemma unity_etc1_keep y x v pos s s' : keeps L (snd s) -> unity_etc1_block m u y x v pos s = Ok s' -> keeps L (snd s').
Proof.
  destruct s as [[[[ae g] buf] cd] dst]. cbn [snd]. intros K H. unfold unity_etc1_block in H. step H. step H. destruct a0 as [[r b] cd1].
  step H. destruct a0 as [[ce1 b1] cd2].
  repeat step H; cbn [snd]; try exact K; keep_etc; assumption.
Qed.
Lemma unity_etc2a_keep y x v pos s s' : keeps L (snd s) -> unity_etc2a_block m u y x v pos s = Ok s' -> keeps L (snd s').
Proof.
  destruct s as [[[[[[ce ae] g] g2] buf] cd] dst]. cbn [snd]. intros K H. unfold unity_etc2a_block in H. step H. step H. destruct a0 as [[r b] cd1].
  step H. destruct a0 as [[[ce1 ae1] b1] cd2].
  repeat step H; cbn [snd]; try exact K; keep_etc; assumption.
Qed.
End Unity.

Lemma unity_unpack_level_2_keep m u src size dst_size pitch level out : 0 <= dst_size * h_faces (u_header u) ->
  unity_unpack_level_2 m u src size dst_size pitch level = Ok out -> keeps (dst_size * h_faces (u_header u)) out.
Proof.
  intros Hn H. unfold unity_unpack_level_2 in H. step H. step H. destruct (dst_size <? a0); [discriminate|]. step H.
  pose proof (zeros_keep _ Hn) as K. set (L := dst_size * h_faces (u_header u)) in *.
  repeat match type of H with (if ?b then _ else _) = Ok _ => destruct b end; [..|discriminate].
  - unfold unity_unpack_dxt1 in H. step H. destruct a2 as [x dst]. injection H as <-. change (keeps L (snd (x, dst))).
    eapply (unity_loops_keep (fun s : Z * Z * list elem * codec * list Z => keeps L (snd s))); [| |exact E2]; [exact K|]. intros. eapply unity_dxt1_keep; eauto.
  - unfold unity_unpack_dxt5 in H. step H. destruct a2 as [x dst]. injection H as <-. change (keeps L (snd (x, dst))).
    eapply (unity_loops_keep (fun s : Z * Z * Z * list elem * codec * list Z => keeps L (snd s))); [| |exact E2]; [exact K|]. intros. eapply unity_dxt5_keep; eauto.
  - unfold unity_unpack_dxt5a in H. step H. destruct a2 as [x dst]. injection H as <-. change (keeps L (snd (x, dst))).
    eapply (unity_loops_keep (fun s : Z * Z * list elem * codec * list Z => keeps L (snd s))); [| |exact E2]; [exact K|]. intros. eapply unity_dxt5a_keep; eauto.
  - unfold unity_unpack_dxn in H. step H. destruct a2 as [x dst]. injection H as <-. change (keeps L (snd (x, dst))).
    eapply (unity_loops_keep (fun s : Z * Z * Z * list elem * codec * list Z => keeps L (snd s))); [| |exact E2]; [exact K|]. intros. eapply unity_dxn_keep; eauto.
  - unfold unity_unpack_etc1 in H. step H. destruct a2 as [x dst]. injection H as <-. change (keeps L (snd (x, dst))).
    eapply (unity_loops_keep (fun s : Z * Z * list elem * codec * list Z => keeps L (snd s))); [| |exact E2]; [exact K|]. intros. eapply unity_etc1_keep; eauto.
  - unfold unity_unpack_etc2a in H. step H. destruct a2 as [x dst]. injection H as <-. change (keeps L (snd (x, dst))).
    eapply (unity_loops_keep (fun s : Z * Z * Z * Z * list elem * codec * list Z => keeps L (snd s))); [| |exact E2]; [exact K|]. intros. eapply unity_etc2a_keep; eauto.
Qed.
