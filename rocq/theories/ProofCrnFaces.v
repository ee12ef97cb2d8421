(** * Several faces with an odd number of block rows cannot be unpacked. *)
From Verif Require Import Base BaseLemmas ModelCrn ModelCrunch ModelUnity ProofAstcRange ProofBc6 SpecCrn SpecCrnHeader SpecCrnLevel SpecCrnFile SpecCrnTexel SpecUnity SpecUnityFile
  ProofCrnHeader ProofCrnGrid ProofCrnFile ProofCrnKeep ProofCrnDecode ProofUnityGrid ProofUnityWhole ProofUnityFile ProofOversize.

Lemma list_ends {A} (l : list A) : l <> [] -> exists x k, l = x :: k.
Proof. destruct l; [congruence|eauto]. Qed.

(** The first chunk of every chunk row lies inside the output. *)
Section Reach.
Context {S : Type} (P : S -> Prop) (m : build) (bpb pitch bx by_ cx cy faces L : Z) (body : bool -> bool -> Z -> S -> res S).
Hypothesis Hkeep : forall a b d s s', P s -> body a b d s = Ok s' -> P s'.
Hypothesis Hreach : forall a b d s s', P s -> 0 <= d < 2 ^ 64 -> d mod 4 = 0 -> body a b d s = Ok s' -> d < L.
Hypothesis Hbpb : bpb = 8 \/ bpb = 16.
Hypothesis Hcx : 1 <= cx <= 2 ^ 14.
Hypothesis Hcy : 1 <= cy <= 2 ^ 14.
Hypothesis Hf : 1 <= faces < 256.
Hypothesis Hp : 0 < pitch < 2 ^ 20.
Hypothesis Hp4 : pitch mod 4 = 0.

Definition reached (n : Z) (x : Z * S) : Prop :=
  fst x = n * (2 * pitch) /\ P (snd x) /\ (n = 0 \/ (n - 1) * (2 * pitch) < L).

Lemma chunk_loops_reach st st' : P st ->
  chunk_loops m bpb pitch bx by_ cx cy faces body st = Ok st' -> (faces * cy - 1) * (2 * pitch) < L.
Proof.
  intros H0 H. unfold chunk_loops in H. step H. clear H. destruct a as [r a].
  assert (swrap 32 cx = cx) as Ecx.
  { unfold swrap. rewrite Z.mod_small by lia. destruct (Z.ltb_spec cx (2 ^ (32 - 1))); lia. }
  assert (reached (faces * cy) (r, a)) as R.
  { refine (for_range_ok_inv (fun f x => reached (f * cy) x) 0 faces _ (0, st) (r, a) ltac:(lia) _ _ E).
    { split; cbn [fst snd]; [lia|]. split; [exact H0|lia]. }
    clear E r a H0 st. intros f s s' Hfr Hs E.
    replace ((f + 1) * cy) with (f * cy + cy) by lia.
    refine (for_range_ok_inv (fun y x => reached (f * cy + y) x) 0 cy _ s s' ltac:(lia) _ _ E).
    { rewrite Z.add_0_r. exact Hs. }
    clear E s s' Hs. intros y [row s] s' Hy (Er & HP & _) E. cbn [fst snd] in *.
    assert (0 <= f * cy + y < 2 ^ 22) as Hn.
    { split; [nia|]. assert (f * cy <= 254 * 2 ^ 14) by (apply Z.mul_le_mono_nonneg; lia). lia. }
    assert (0 <= row < 2 ^ 44) as Hr.
    { subst row. split; [apply Z.mul_nonneg_nonneg; lia|].
      assert ((f * cy + y) * (2 * pitch) <= (2 ^ 22 - 1) * (2 * 2 ^ 20)) by (apply Z.mul_le_mono_nonneg; lia). lia. }
    assert (row mod 4 = 0) as Hr4.
    { subst row. replace ((f * cy + y) * (2 * pitch)) with ((f * cy + y) * 2 * pitch) by lia.
      rewrite Z.mul_mod, Hp4, Z.mul_0_r by lia. reflexivity. }
    step E. rename a into dst, E0 into ED.
    assert (row <= dst < 2 ^ 64 /\ dst mod 4 = 0) as [Hd Hd4].
    { destruct (Z.land y 1 =? 1); [|injection ED as <-; split; [lia|auto]].
      rewrite Ecx in ED.
      rewrite ia_ok in ED by (destruct Hbpb; lia). cbn [bind] in ED.
      rewrite ia_ok in ED by (destruct Hbpb; subst; lia). cbn [bind] in ED.
      rewrite ia_ok in ED by (destruct Hbpb; subst; lia). cbn [bind] in ED.
      replace (u64 ((cx - 1) * bpb * 2)) with ((cx - 1) * bpb * 2) in ED
        by (unfold u64; rewrite Z.mod_small; [auto|destruct Hbpb; subst; lia]).
      rewrite ua_ok in ED by (destruct Hbpb; subst; lia). injection ED as <-.
      split; [destruct Hbpb; subst bpb; lia|].
      replace (row + (cx - 1) * bpb * 2) with (row + (cx - 1) * (bpb / 4 * 2) * 4) by (destruct Hbpb; subst bpb; [change (8 / 4) with 2|change (16 / 4) with 4]; lia).
      rewrite Z.mod_add by lia. exact Hr4. }
    step E. rename E0 into EL. destruct a as [d1 s1].
    rewrite ua_ok in E by lia. cbn [bind] in E.
    rewrite ua_ok in E by lia. cbn [bind] in E. injection E as <-.
    unfold reached. cbn [fst snd].
    assert (exists x k, (if Z.land y 1 =? 1 then rev (zrange 0 (swrap 32 cx)) else zrange 0 (swrap 32 cx)) = x :: k) as (x & k & Ek).
    { apply list_ends. intros N. assert (In 0 (zrange 0 (swrap 32 cx))) as I by (apply in_zrange; lia).
      destruct (Z.land y 1 =? 1); [apply in_rev in I|]; rewrite N in I; destruct I. }
    rewrite Ek in EL. cbn [for_list] in EL. step EL. rename E into E1, EL into EL'.
    destruct a as [d2 s2].
    step E1. step E1. injection E1 as <- <-.
    pose proof (Hreach _ _ dst _ _ HP ltac:(lia) Hd4 E) as RL.
    pose proof (Hkeep _ _ _ _ _ HP E) as HP2.
    split; [lia|]. split; [|right; lia].
    change s1 with (snd (d1, s1)).
    refine (for_list_keep (fun x : Z * S => P (snd x)) _ k (u64 a0, a) (d1, s1) HP2 _ EL'). intros z [d s3] s4 _ K3 G. cbn [snd] in K3.
    step G. step G. injection G as <-. cbn [snd]. eapply Hkeep; eauto. }
  destruct R as (_ & _ & [R|R]); [|exact R]. exfalso.
  assert (1 <= faces * cy) by nia. lia.
Qed.
End Reach.

(** ** Where the unpackers write first *)
Lemma write_int_reach m L dst i v dst' : keeps L dst -> 0 <= i < 2 ^ 62 -> write_int m dst i v = Ok dst' -> i * 4 < L.
Proof.
  intros [_ Hl] Hi H. unfold write_int in H. rewrite ua_ok in H by lia. cbn [bind] in H. step H. apply upd_inv in E. lia.
Qed.
Lemma write_alpha_reach m u L dst i e w dst' : keeps L dst -> 0 <= i < 2 ^ 62 -> write_alpha m u dst i e w = Ok dst' -> i * 4 < L.
Proof. intros K Hi H. unfold write_alpha in H. destruct w as [[w0 w1] w2]. step H. eapply write_int_reach; eauto. Qed.
Lemma word_pos d : 0 <= d < 2 ^ 64 -> d mod 4 = 0 -> 0 <= Z.shiftr d 2 < 2 ^ 62 /\ Z.shiftr d 2 * 4 = d.
Proof.
  intros H E. rewrite shr_div by lia. change (2 ^ 2) with 4. pose proof (Z.div_mod d 4 ltac:(lia)).
  split; [|lia]. split; [apply Z.div_pos; lia|]. apply Z.div_lt_upper_bound; lia.
Qed.

Lemma chunk_blocks_reach {S} (P : S -> Prop) m L bpb pitch d a b blk st st' :
  P st -> 0 <= d < 2 ^ 64 -> d mod 4 = 0 ->
  (forall k pd s s', P s -> 0 <= pd < 2 ^ 62 -> blk true k pd s = Ok s' -> pd * 4 < L) ->
  chunk_blocks m bpb pitch d a b blk st = Ok st' -> d < L.
Proof.
  intros H0 Hd Hd4 Hb H. unfold chunk_blocks in H. destruct (word_pos d Hd Hd4) as [Hpd Epd].
  step H. clear H. rewrite for_range_cons in E by lia. step E. clear E. step E0. clear E0. rewrite for_range_cons in E by lia. step E. clear E.
  step E0. change (negb ((negb (0 =? 0) && a) || (negb (0 =? 0) && b))) with true in E.
  pose proof (Hb _ _ _ _ H0 Hpd E). lia.
Qed.

Section Bodies.
Context (m : build) (u : unpacker) (L : Z).

Lemma dxt5_block_reach ceps aeps tiles k pd s s' : keeps L (snd s) -> 0 <= pd < 2 ^ 62 ->
  dxt5_block m u ceps aeps tiles true k pd s = Ok s' -> pd * 4 < L.
Proof.
  destruct s as [[[a b] c] dst]. cbn [snd]. intros K Hp H. unfold dxt5_block in H.
  do 2 (step H; match goal with p : (_ * _)%type |- _ => destruct p end). step H. step H. step H. step H. eapply write_alpha_reach; eauto.
Qed.
Lemma dxt5a_block_reach aeps tiles k pd s s' : keeps L (snd s) -> 0 <= pd < 2 ^ 62 ->
  dxt5a_block m u aeps tiles true k pd s = Ok s' -> pd * 4 < L.
Proof.
  destruct s as [[a c] dst]. cbn [snd]. intros K Hp H. unfold dxt5a_block in H.
  step H; match goal with p : (_ * _)%type |- _ => destruct p end. step H. step H. step H. step H. eapply write_alpha_reach; eauto.
Qed.
Lemma dxn_block_reach eps0 eps1 tiles k pd s s' : keeps L (snd s) -> 0 <= pd < 2 ^ 62 ->
  dxn_block m u eps0 eps1 tiles true k pd s = Ok s' -> pd * 4 < L.
Proof.
  destruct s as [[[a b] c] dst]. cbn [snd]. intros K Hp H. unfold dxn_block in H.
  do 2 (step H; match goal with p : (_ * _)%type |- _ => destruct p end). step H. step H. step H. step H. step H. eapply write_alpha_reach; eauto.
Qed.

Lemma dxt1_chunk_reach pitch a b d s s' : keeps L (snd s) -> 0 <= d < 2 ^ 64 -> d mod 4 = 0 ->
  dxt1_chunk m u pitch a b d s = Ok s' -> d < L.
Proof.
  destruct s as [[[[bits pe] ps] cd] dst]. cbn [snd]. intros K Hd Hd4 H. unfold dxt1_chunk in H. destruct (word_pos d Hd Hd4) as [Hpd Epd].
  step H. destruct a0 as [[e bits1] cd1]. step H. step H. destruct a1 as [[eps pe1] cd2]. step H.
  destruct (negb b && negb a).
  - step H. clear H. unfold dxt1_full_block in E3. step E3. step E3. step E3. match goal with E : write_int m dst (Z.shiftr d 2) _ = _ |- _ => pose proof (write_int_reach _ _ _ _ _ _ K Hpd E) end. lia.
  - step H. clear H. rewrite for_range_cons in E3 by lia. step E3. clear E3. rewrite Z.mul_0_r in E4.
    rewrite ua_ok in E4 by lia. cbn [bind] in E4. rewrite Z.add_0_r, ua_ok in E4 by lia. cbn [bind] in E4.
    rewrite for_range_cons in E4 by lia. step E4. clear E4. change (negb ((negb (0 =? 0) && a) || (negb (0 =? 0) && b))) with true in E3.
    rewrite Z.mul_0_r, Z.add_0_r in E3. unfold dxt1_part_block in E3. step E3. destruct a5 as [ps1 cd3]. step E3. step E3. step E3. rewrite Z.add_0_r in E7.
    match goal with E : write_int m dst (Z.shiftr d 2) _ = _ |- _ => pose proof (write_int_reach _ _ _ _ _ _ K Hpd E) end. lia.
Qed.
Lemma dxt5_chunk_reach pitch a b d s s' : keeps L (snd s) -> 0 <= d < 2 ^ 64 -> d mod 4 = 0 ->
  dxt5_chunk m u pitch a b d s = Ok s' -> d < L.
Proof.
  destruct s as [[[[[[bits x1] x2] x3] x4] cd] dst]. cbn [snd]. intros K Hd Hd4 H. unfold dxt5_chunk in H.
  step H. destruct a0 as [[e bits1] cd1]. step H. step H. step H. destruct a2 as [[eps pe1] cd2]. step H. destruct a2 as [[eps2 pe2] cd3]. step H. clear H.
  eapply (chunk_blocks_reach (fun x : Z * Z * codec * list Z => keeps L (snd x))); [..|exact E4]; [exact K|exact Hd|exact Hd4|].
  intros. eapply dxt5_block_reach; eauto.
Qed.
Lemma dxn_chunk_reach pitch a b d s s' : keeps L (snd s) -> 0 <= d < 2 ^ 64 -> d mod 4 = 0 ->
  dxn_chunk m u pitch a b d s = Ok s' -> d < L.
Proof.
  destruct s as [[[[[[bits x1] x2] x3] x4] cd] dst]. cbn [snd]. intros K Hd Hd4 H. unfold dxn_chunk in H.
  step H. destruct a0 as [[e bits1] cd1]. step H. step H. step H. destruct a2 as [[eps pe1] cd2]. step H. destruct a2 as [[eps2 pe2] cd3]. step H. clear H.
  eapply (chunk_blocks_reach (fun x : Z * Z * codec * list Z => keeps L (snd x))); [..|exact E4]; [exact K|exact Hd|exact Hd4|].
  intros. eapply dxn_block_reach; eauto.
Qed.
Lemma dxt5a_chunk_reach pitch a b d s s' : keeps L (snd s) -> 0 <= d < 2 ^ 64 -> d mod 4 = 0 ->
  dxt5a_chunk m u pitch a b d s = Ok s' -> d < L.
Proof.
  destruct s as [[[[bits x1] x2] cd] dst]. cbn [snd]. intros K Hd Hd4 H. unfold dxt5a_chunk in H.
  step H. destruct a0 as [[e bits1] cd1]. step H. step H. step H. destruct a2 as [[eps pe1] cd2]. step H. clear H.
  eapply (chunk_blocks_reach (fun x : Z * codec * list Z => keeps L (snd x))); [..|exact E3]; [exact K|exact Hd|exact Hd4|].
  intros. eapply dxt5a_block_reach; eauto.
Qed.
End Bodies.

Lemma even_shiftr_up by_ : 0 <= by_ -> by_ mod 2 = 1 -> 2 * Z.shiftr (by_ + 1) 1 = by_ + 1.
Proof. intros H O. rewrite shr_div by lia. change (2 ^ 1) with 2. pose proof (Z.div_mod by_ 2 ltac:(lia)). rewrite O in H0. replace (by_ + 1) with ((by_ / 2 + 1) * 2) at 1 by lia. rewrite Z.div_mul; lia. Qed.

Lemma unpack_level_2_faces m u src size n pitch level W H out : 
  Z.shiftr (Z.max (Z.shiftr (h_width (u_header u)) level) 1 + 3) 2 = W -> Z.shiftr (Z.max (Z.shiftr (h_height (u_header u)) level) 1 + 3) 2 = H ->
  1 <= W <= 2 ^ 14 -> 1 <= H <= 2 ^ 14 -> H mod 2 = 1 -> 2 <= h_faces (u_header u) < 256 ->
  (pitch = W * 8 \/ pitch = W * 16) -> 0 <= n <= pitch * H ->
  unpack_level_2 m u src size n pitch level <> Ok out.
Proof.
  intros EW EH HW HH O HF Hp Hn G. unfold unpack_level_2 in G. rewrite EW, EH in G.
  set (F := h_faces (u_header u)) in *. 
  assert (0 < pitch < 2 ^ 20 /\ pitch mod 4 = 0) as [Hp1 Hp4].
  { split; [lia|]. destruct Hp; subst pitch; [change 8 with (2 * 4)|change 16 with (4 * 4)]; rewrite Z.mul_assoc; apply Z.mod_mul; lia. }
  destruct (Z.eqb_spec pitch 0); [lia|]. step G. assert (a = pitch) as ->.
  { destruct (_ || _) in E; congruence. }
  clear E. step G. clear E. destruct (n <? a); [discriminate|]. step G. clear E.
  pose proof (even_shiftr_up H ltac:(lia) O) as Ey.
  assert (1 <= Z.shiftr (W + 1) 1 <= 2 ^ 14) as Hcx.
  { rewrite shr_div by lia. change (2 ^ 1) with 2. split; [apply Z.div_le_lower_bound; lia|]. apply Z.lt_succ_r. apply Z.div_lt_upper_bound; lia. }
  set (cx := Z.shiftr (W + 1) 1) in *. set (cy := Z.shiftr (H + 1) 1) in *. clearbody cx cy.
  assert (n * F <= (F * cy - 1) * (2 * pitch)) as Hend.
  { assert (n * F <= pitch * H * F) by (apply Z.mul_le_mono_nonneg_r; lia).
    replace ((F * cy - 1) * (2 * pitch)) with ((F * (2 * cy) - 2) * pitch) by ring. rewrite Ey.
    replace ((F * (H + 1) - 2) * pitch) with (pitch * H * F + (F - 2) * pitch) by ring. assert (0 <= (F - 2) * pitch) by (apply Z.mul_nonneg_nonneg; lia). lia. }
  assert (0 <= n * F) as Hn0 by (apply Z.mul_nonneg_nonneg; lia).
  pose proof (zeros_keep _ Hn0) as K. set (L := n * F) in *. clearbody L.
  repeat match type of G with (if ?b then _ else _) = Ok _ => destruct b end; [..|discriminate].
  - unfold unpack_dxt1 in G. step G. clear G.
    apply (chunk_loops_reach (fun s : dxt1_state => keeps L (snd s)) m 8 pitch W H cx cy F L) in E; [lia| | |auto|lia..|exact Hp4|exact K].
    + intros. eapply dxt1_chunk_keep; eauto.
    + intros. eapply dxt1_chunk_reach; eauto.
  - unfold unpack_dxt5 in G. step G. clear G.
    apply (chunk_loops_reach (fun s : dxt5_state => keeps L (snd s)) m 16 pitch W H cx cy F L) in E; [lia| | |auto|lia..|exact Hp4|exact K].
    + intros. eapply dxt5_chunk_keep; eauto.
    + intros. eapply dxt5_chunk_reach; eauto.
  - unfold unpack_dxt5a in G. step G. clear G.
    apply (chunk_loops_reach (fun s : dxt1_state => keeps L (snd s)) m 8 pitch W H cx cy F L) in E; [lia| | |auto|lia..|exact Hp4|exact K].
    + intros. eapply dxt5a_chunk_keep; eauto.
    + intros. eapply dxt5a_chunk_reach; eauto.
  - unfold unpack_dxn in G. step G. clear G.
    apply (chunk_loops_reach (fun s : dxt5_state => keeps L (snd s)) m 16 pitch W H cx cy F L) in E; [lia| | |auto|lia..|exact Hp4|exact K].
    + intros. eapply dxn_chunk_keep; eauto.
    + intros. eapply dxn_chunk_reach; eauto.
Qed.

Lemma ua_le m w x v : 0 <= x -> 0 <= w -> ua m w x = Ok v -> 0 <= v <= x.
Proof.
  intros Hx Hw H. split; [exact (ua_nonneg m w x v Hx Hw H)|]. unfold ua in H. destruct ((0 <=? x) && (x <? 2 ^ w)); [inversion H; apply Z.le_refl|].
  destruct m; [discriminate|]. inversion H. apply Z.mod_le; [lia|]. apply Z.pow_pos_nonneg; lia.
Qed.

Lemma crunch_faces_never m d level r : bytes d -> 0 <= level -> 2 <= number d 17 1 -> level_cols (number d 14 2) level mod 2 = 1 ->
  crunch_unpack_level m d (zlen d) level <> Ok r.
Proof.
  intros Hb Hl HF O H. destruct r as [fr dxt]. pose proof H as H'. destruct (unpack_facts m d level fr dxt Hb Hl H') as (-> & _ & raw & tex & T & _). clear H'.
  unfold crunch_unpack_level in H. step H. apply or_err_inv in E. destruct (info_inv d a Hb E) as (-> & L1 & L2 & WF & F15).
  step H. pose proof (begin_header m d a Hb E0) as EH. cbn [i_width i_height i_format info_at] in H.
  pose proof (number_range d 12 2 Hb ltac:(lia)) as Nw. pose proof (number_range d 14 2 Hb ltac:(lia)) as Nh. pose proof (number_range d 17 1 Hb ltac:(lia)) as Nf.
  destruct (level_cols_eq (number d 12 2) level ltac:(lia) ltac:(lia)) as [E1 HW]. destruct (level_cols_eq (number d 14 2) level ltac:(lia) ltac:(lia)) as [E2 HH].
  pose proof (level_cols_le (number d 12 2) level ltac:(lia) Hl) as HW2. pose proof (level_cols_le (number d 14 2) level ltac:(lia) Hl) as HH2.
  rewrite (Z.max_comm 1 (Z.shiftr (number d 12 2) level)), (Z.max_comm 1 (Z.shiftr (number d 14 2) level)), E1, E2 in H.
  rewrite !(Z.max_r 1) in H by lia. set (W := level_cols (number d 12 2) level) in *. set (H0 := level_cols (number d 14 2) level) in *.
  step H. step H. step H. step H. injection H as _.
  unfold crnd_unpack_level in E6. destruct ((a2 <? 8) || (CRNMAX_LEVELS <=? level)); [discriminate|]. step E6. destruct a4 as [src sz].
  pose proof (block_size _ _ _ _ E3 T) as Er. subst a0.
  assert (raw = 8 \/ raw = 16) as Hr.
  { unfold crunch_texels in T. repeat match type of T with (if ?b then _ else _) = _ => destruct b end; try discriminate; injection T as <- _; auto. }
  rewrite ua_ok in E4 by (destruct Hr; subst raw; lia). injection E4 as <-.
  apply ua_le in E5; [|destruct Hr; subst raw; nia|lia].
  eapply (unpack_level_2_faces m a src sz a2 (W * raw) level W H0); [..|exact E6]; rewrite ?EH; cbn [h_width h_height h_faces header_at]; auto; try lia.
Qed.

(** ** Unity *)
Lemma ua_cong m w x v : 0 <= w -> ua m w x = Ok v -> 0 <= v < 2 ^ w /\ exists q, v = x + q * 2 ^ w.
Proof.
  intros Hw H. pose proof (Z.pow_pos_nonneg 2 w ltac:(lia) Hw). unfold ua in H. destruct ((0 <=? x) && (x <? 2 ^ w)) eqn:B.
  - inversion H. subst v. split; [lia|]. exists 0. lia.
  - destruct m; [discriminate|]. inversion H. split; [apply Z.mod_pos_bound; lia|]. exists (- (x / 2 ^ w)). rewrite Z.mod_eq by lia. lia.
Qed.

Section UnityReach.
Context {S : Type} (P : S -> Prop) (m : build) (words ow oh faces L : Z) (body : Z -> Z -> bool -> Z -> S -> res S).
Hypothesis Hkeep : forall y x v d s s', P s -> body y x v d s = Ok s' -> P s'.
Hypothesis Hreach : forall y x d s s', P s -> 0 <= d < 2 ^ 62 -> body y x true d s = Ok s' -> d * 4 < L.
Hypothesis Hw : words = 2 \/ words = 4.
Hypothesis Hox : 1 <= ow <= 2 ^ 14.
Hypothesis Hoy : 1 <= oh <= 2 ^ 14.
Hypothesis Hf : 1 <= faces < 256.

Lemma row_shift dlt : ua m 32 (ow * words - even_up ow * words) = Ok dlt ->
  exists q, u64 (swrap 32 dlt) = (ow - even_up ow) * words + q * 2 ^ 64.
Proof.
  intros H. destruct (even_up_bounds ow ltac:(lia)) as [B1 B2].
  assert (swrap 32 dlt = (ow - even_up ow) * words) as ->.
  { destruct (Z.eq_dec (even_up ow) ow) as [E|E].
    - rewrite E, Z.sub_diag in *. rewrite ua_ok in H by lia. inversion H. reflexivity.
    - assert (even_up ow = ow + 1) as E1 by lia. rewrite E1 in H. rewrite E1. replace (ow * words - (ow + 1) * words) with (- words) in H by lia. replace ((ow - (ow + 1)) * words) with (- words) by lia.
      destruct m; [rewrite ua_panics in H by lia; discriminate|]. rewrite ua_wraps in H by lia. inversion H. destruct Hw; subst words; reflexivity. }
  unfold u64. exists (- ((ow - even_up ow) * words / 2 ^ 64)). rewrite Z.mod_eq by lia. lia.
Qed.

Definition at_row (n : Z) (x : Z * S) : Prop := fst x = n * (ow * words) /\ P (snd x).

Lemma unity_loops_reach st st' : P st ->
  unity_loops m words (ow * (4 * words)) ow oh faces body st = Ok st' -> ((faces - 1) * even_up oh + (oh - 1)) * (ow * words) * 4 < L.
Proof.
  intros H0 H. unfold unity_loops in H. rewrite !even_up_land in H by lia.
  assert (Z.shiftr (ow * (4 * words)) 2 = ow * words) as Es.
  { rewrite shr_div by lia. change (2 ^ 2) with 4. symmetry. apply Z.div_unique with 0; lia. }
  rewrite Es in H. step H. apply row_shift in E. destruct E as [q Eq]. step H. clear H. destruct a0 as [r a0]. rename E into H.
  destruct (even_up_bounds ow ltac:(lia)) as [Bw1 Bw2]. destruct (even_up_bounds oh ltac:(lia)) as [Bh1 Bh2].
  set (cols := even_up ow) in *. set (rows := even_up oh) in *.
  enough (faces = 0 \/ ((faces - 1) * rows + (oh - 1)) * (ow * words) * 4 < L) as B by (destruct B; [lia|assumption]).
  refine (proj2 (for_range_ok_inv (fun f x => at_row (f * rows) x /\ (f = 0 \/ ((f - 1) * rows + (oh - 1)) * (ow * words) * 4 < L)) 0 faces _ (0, st) (r, a0) ltac:(lia) _ _ H)).
  { split; [|lia]. split; [cbn [fst]; lia|exact H0]. }
  clear H H0 st r a0. intros f s s' Hfr [Hs _] H.
    replace ((f + 1) * rows) with (f * rows + rows) by ring. replace (f + 1 - 1) with f by ring.
    assert (at_row (f * rows + rows) s' /\ (rows < oh \/ (f * rows + (oh - 1)) * (ow * words) * 4 < L)) as [G1 G2]; [|split; [exact G1|lia]].
    refine (for_range_ok_inv (fun y x => at_row (f * rows + y) x /\ (y < oh \/ (f * rows + (oh - 1)) * (ow * words) * 4 < L)) 0 rows _ s s' ltac:(lia) _ _ H).
    { split; [|lia]. rewrite Z.add_0_r. exact Hs. }
    clear H Hs s s'. intros y [pos s] s' Hy [[Ep HP] HL] H. cbn [fst snd] in *.
    assert (0 <= f * rows + y < 2 ^ 22) as Hn.
    { split; [nia|]. assert (f * rows <= 254 * (2 ^ 14 + 1)) by (apply Z.mul_le_mono_nonneg; lia). lia. }
    assert (0 <= ow * words <= 2 ^ 16) as How by (destruct Hw; subst words; lia).
    assert (0 <= pos < 2 ^ 40) as Hpos.
    { subst pos. split; [apply Z.mul_nonneg_nonneg; lia|]. assert ((f * rows + y) * (ow * words) <= (2 ^ 22 - 1) * 2 ^ 16) by (apply Z.mul_le_mono_nonneg; lia). lia. }
    step H. rename E into HX. destruct a0 as [[v1 d1] s1]. step H. rename E into HD. inversion H. subst s'. clear H.
    assert (d1 = pos + cols * words /\ P s1) as [Ed1 HP1].
    { refine (for_range_ok_inv (fun x (t : bool * Z * S) => snd (fst t) = pos + x * words /\ P (snd t)) 0 cols _ _ (v1, d1, s1) ltac:(lia) _ _ HX).
      - cbn [fst snd]. split; [lia|exact HP].
      - clear HX HD. intros x [[v d] t] t' Hx [Q1 Q2] HB. cbn [fst snd] in *. step HB. step HB. inversion HB. cbn [fst snd].
        rewrite ua_ok in E0 by (subst d; destruct Hw; subst words; lia). inversion E0. subst d. split; [lia|]. eapply Hkeep; eauto. }
    assert (a0 = (f * rows + (y + 1)) * (ow * words)) as Ea.
    { apply ua_cong in HD; [|lia]. destruct HD as [R [q2 E2]]. rewrite Eq, Ed1, Ep in E2.
      assert (0 <= (f * rows + (y + 1)) * (ow * words) < 2 ^ 64) as B.
      { replace ((f * rows + (y + 1)) * (ow * words)) with ((f * rows + y) * (ow * words) + ow * words) by ring. lia. }
      replace ((f * rows + y) * (ow * words) + cols * words + ((ow - cols) * words + q * 2 ^ 64) + q2 * 2 ^ 64) with ((f * rows + (y + 1)) * (ow * words) + (q + q2) * 2 ^ 64) in E2 by ring.
      generalize dependent ((f * rows + (y + 1)) * (ow * words)). intros z E2 B. nia. }
    split; [split; [exact Ea|exact HP1]|].
    destruct (Z.ltb_spec (y + 1) oh) as [|Hlast]; [left; lia|right].
    destruct (Z.ltb_spec y oh) as [Hv|Hv]; [|lia]. assert (y = oh - 1) by lia. subst y.
    rewrite for_range_cons in HX by lia. step HX. clear HX. step E. clear E. destruct (Z.ltb_spec 0 ow); [|lia]. cbn [andb] in E0.
    pose proof (Hreach _ _ pos _ _ HP ltac:(lia) E0). lia.
Qed.
End UnityReach.

Lemma write_bytes4_reach L dst i b dst' : keeps L dst -> 0 <= i -> write_bytes4 dst i b = Ok dst' -> i * 4 < L.
Proof. intros [_ Hl] Hi H. unfold write_bytes4 in H. step H. step H. apply upd_inv in E0. lia. Qed.

Section UnityBodies.
Context (m : build) (u : unpacker) (L : Z).
Ltac reach dst pos K Hp :=
  match goal with
  | E : write_int _ dst pos _ = Ok _ |- _ => exact (write_int_reach _ _ _ _ _ _ K Hp E)
  | E : write_alpha _ _ dst pos _ _ = Ok _ |- _ => exact (write_alpha_reach _ _ _ _ _ _ _ _ K Hp E)
  | E : write_bytes4 dst pos _ = Ok _ |- _ => exact (write_bytes4_reach _ _ _ _ _ K (proj1 Hp) E)
  end.
Lemma unity_dxt1_reach y x pos s s' : keeps L (snd s) -> 0 <= pos < 2 ^ 62 -> unity_dxt1_block m u y x true pos s = Ok s' -> pos * 4 < L.
Proof. destruct s as [[[[ce g] buf] cd] dst]. cbn [snd]. intros K Hp H. unfold unity_dxt1_block in H. repeat step H; reach dst pos K Hp. Qed.
Lemma unity_dxt5_reach y x pos s s' : keeps L (snd s) -> 0 <= pos < 2 ^ 62 -> unity_dxt5_block m u y x true pos s = Ok s' -> pos * 4 < L.
Proof. destruct s as [[[[[ce ae] g] buf] cd] dst]. cbn [snd]. intros K Hp H. unfold unity_dxt5_block in H. repeat step H; reach dst pos K Hp. Qed.
Lemma unity_dxt5a_reach y x pos s s' : keeps L (snd s) -> 0 <= pos < 2 ^ 62 -> unity_dxt5a_block m u y x true pos s = Ok s' -> pos * 4 < L.
Proof. destruct s as [[[[ce g] buf] cd] dst]. cbn [snd]. intros K Hp H. unfold unity_dxt5a_block in H. repeat step H; reach dst pos K Hp. Qed.
Lemma unity_dxn_reach y x pos s s' : keeps L (snd s) -> 0 <= pos < 2 ^ 62 -> unity_dxn_block m u y x true pos s = Ok s' -> pos * 4 < L.
Proof. destruct s as [[[[[ce ae] g] buf] cd] dst]. cbn [snd]. intros K Hp H. unfold unity_dxn_block in H. repeat step H; reach dst pos K Hp. Qed.
Lemma unity_etc1_reach y x pos s s' : keeps L (snd s) -> 0 <= pos < 2 ^ 62 -> unity_etc1_block m u y x true pos s = Ok s' -> pos * 4 < L.
Proof.
  destruct s as [[[[ae g] buf] cd] dst]. cbn [snd]. intros K Hp H. unfold unity_etc1_block in H. step H. step H. destruct a0 as [[r b] cd1].
  step H. destruct a0 as [[ce1 b1] cd2]. repeat step H; reach dst pos K Hp.
Qed.
Lemma unity_etc2a_reach y x pos s s' : keeps L (snd s) -> 0 <= pos < 2 ^ 62 -> unity_etc2a_block m u y x true pos s = Ok s' -> pos * 4 < L.
Proof.
  destruct s as [[[[[[ce ae] g] g2] buf] cd] dst]. cbn [snd]. intros K Hp H. unfold unity_etc2a_block in H. step H. step H. destruct a0 as [[r b] cd1].
  step H. destruct a0 as [[[ce1 ae1] b1] cd2]. repeat step H; reach dst pos K Hp.
Qed.
End UnityBodies.

Lemma unity_level_2_faces m u src size n level W H out : 
  Z.shiftr (Z.max (Z.shiftr (h_width (u_header u)) level) 1 + 3) 2 = W -> Z.shiftr (Z.max (Z.shiftr (h_height (u_header u)) level) 1 + 3) 2 = H ->
  1 <= W <= 2 ^ 14 -> 1 <= H <= 2 ^ 14 -> H mod 2 = 1 -> 2 <= h_faces (u_header u) < 256 ->
  0 <= n <= W * u_block_size (h_format (u_header u)) * H ->
  unity_unpack_level_2 m u src size n (W * u_block_size (h_format (u_header u))) level <> Ok out.
Proof.
  intros EW EH HW HH O HF Hn G. unfold unity_unpack_level_2 in G. rewrite EW, EH in G.
  change FmtDxt1 with 0 in G. change FmtDxt5a with 9 in G. change FmtDxt5 with 2 in G. change FmtDxt5CcxY with 3 in G. change FmtDxt5XGxR with 4 in G. change FmtDxt5XGbr with 5 in G. change FmtDxt5Agbr with 6 in G. change FmtDxnXy with 7 in G. change FmtDxnYx with 8 in G.
  change FmtEtc1 with 10 in G. change FmtEtc2 with 11 in G. change FmtEtc2a with 12 in G. change FmtEtc1s with 13 in G. change FmtEtc2as with 14 in G.
  set (f := h_format (u_header u)) in *. fold (u_block_size f) in G. set (F := h_faces (u_header u)) in *.
  assert (u_block_size f = 8 \/ u_block_size f = 16) as HB.
  { unfold u_block_size. match goal with |- context [if ?b then _ else _] => destruct b end; auto. }
  destruct (Z.eqb_spec (W * u_block_size f) 0); [lia|]. step G. destruct (_ || _) in E; [discriminate|]. injection E as <-.
  step G. clear E. destruct (n <? a) in G; [discriminate|]. step G. clear E a.
  set (B := u_block_size f) in *.
  pose proof (even_up_odd H ltac:(lia)) as Ey.
  assert (n * F <= ((F - 1) * even_up H + (H - 1)) * (W * B)) as Hend.
  { rewrite Ey. assert (n * F <= W * B * H * F) by (apply Z.mul_le_mono_nonneg_r; lia).
    replace (((F - 1) * (H + 1) + (H - 1)) * (W * B)) with (W * B * H * F + (F - 2) * (W * B)) by ring.
    assert (0 <= (F - 2) * (W * B)) by (apply Z.mul_nonneg_nonneg; lia). lia. }
  assert (0 <= n * F) as Hn0 by (apply Z.mul_nonneg_nonneg; lia).
  pose proof (zeros_keep _ Hn0) as K. set (L := n * F) in *. clearbody L.
  assert (forall words S (P : S -> Prop) body st st', words = 2 \/ words = 4 -> B = 4 * words -> P st ->
    (forall y x v d s s', P s -> body y x v d s = Ok s' -> P s') ->
    (forall y x d s s', P s -> 0 <= d < 2 ^ 62 -> body y x true d s = Ok s' -> d * 4 < L) ->
    unity_loops m words (W * B) W H F body st = Ok st' -> False) as R.
  { intros words S P body st st' Hw EB H0 Hk Hr U. rewrite EB in U.
    pose proof (unity_loops_reach P m words W H F L body Hk Hr Hw HW HH ltac:(lia) st st' H0 U) as X.
    assert (((F - 1) * even_up H + (H - 1)) * (W * words) * 4 = ((F - 1) * even_up H + (H - 1)) * (W * B)) by (rewrite EB; ring). lia. }
  repeat match type of G with
  | (if ?b then unity_unpack_dxt1 _ _ _ _ _ _ _ else _) = _ => destruct b eqn:K0
  | (if ?b then unity_unpack_dxt5 _ _ _ _ _ _ _ else _) = _ => destruct b eqn:K1
  | (if ?b then unity_unpack_dxt5a _ _ _ _ _ _ _ else _) = _ => destruct b eqn:K2
  | (if ?b then unity_unpack_dxn _ _ _ _ _ _ _ else _) = _ => destruct b eqn:K3
  | (if ?b then unity_unpack_etc1 _ _ _ _ _ _ _ else _) = _ => destruct b eqn:K4
  | (if ?b then unity_unpack_etc2a _ _ _ _ _ _ _ else _) = _ => destruct b eqn:K5
  end.
  - unfold unity_unpack_dxt1 in G. step G. apply (R 2 _ (fun s : Z * Z * list elem * codec * list Z => keeps L (snd s))) in E; [exact E|auto| |exact K|..].
    + unfold B. assert (f = 0 \/ f = 13) as [->| ->] by lia; reflexivity.
    + intros. eapply unity_dxt1_keep; eauto.
    + intros. eapply unity_dxt1_reach; eauto.
  - unfold unity_unpack_dxt5 in G. step G. apply (R 4 _ (fun s : Z * Z * Z * list elem * codec * list Z => keeps L (snd s))) in E; [exact E|auto| |exact K|..].
    + unfold B. assert (f = 2 \/ f = 3 \/ f = 4 \/ f = 5 \/ f = 6 \/ f = 14) as [->|[->|[->|[->|[->| ->]]]]] by lia; reflexivity.
    + intros. eapply unity_dxt5_keep; eauto.
    + intros. eapply unity_dxt5_reach; eauto.
  - unfold unity_unpack_dxt5a in G. step G. apply (R 2 _ (fun s : Z * Z * list elem * codec * list Z => keeps L (snd s))) in E; [exact E|auto| |exact K|..].
    + unfold B. assert (f = 9) as -> by lia; reflexivity.
    + intros. eapply unity_dxt5a_keep; eauto.
    + intros. eapply unity_dxt5a_reach; eauto.
  - unfold unity_unpack_dxn in G. step G. apply (R 4 _ (fun s : Z * Z * Z * list elem * codec * list Z => keeps L (snd s))) in E; [exact E|auto| |exact K|..].
    + unfold B. assert (f = 7 \/ f = 8) as [->| ->] by lia; reflexivity.
    + intros. eapply unity_dxn_keep; eauto.
    + intros. eapply unity_dxn_reach; eauto.
  - unfold unity_unpack_etc1 in G. step G. apply (R 2 _ (fun s : Z * Z * list elem * codec * list Z => keeps L (snd s))) in E; [exact E|auto| |exact K|..].
    + unfold B. assert (f = 10 \/ f = 11) as [->| ->] by lia; reflexivity.
    + intros. eapply unity_etc1_keep; eauto.
    + intros. eapply unity_etc1_reach; eauto.
  - unfold unity_unpack_etc2a in G. step G. apply (R 4 _ (fun s : Z * Z * Z * Z * list elem * codec * list Z => keeps L (snd s))) in E; [exact E|auto| |exact K|..].
    + unfold B. assert (f = 12) as -> by lia; reflexivity.
    + intros. eapply unity_etc2a_keep; eauto.
    + intros. eapply unity_etc2a_reach; eauto.
  - discriminate.
Qed.

Lemma unity_faces_never m d level r : bytes d -> 0 <= level -> 2 <= number d 17 1 -> level_cols (number d 14 2) level mod 2 = 1 ->
  unity_crunch_unpack_level m d (zlen d) level <> Ok r.
Proof.
  intros Hb Hl HF O H. destruct r as [fr dxt]. pose proof H as H'. destruct (unity_unpack_facts m d level fr dxt Hb Hl H') as (-> & _ & raw & tex & T & _). clear H'.
  unfold unity_crunch_unpack_level in H. step H. apply or_err_inv in E. destruct (info_inv d a Hb E) as (-> & L1 & L2 & WF & F15).
  step H. pose proof (unity_begin_header m d a Hb E0) as EH. cbn [i_width i_height i_format info_at] in H.
  pose proof (number_range d 12 2 Hb ltac:(lia)) as Nw. pose proof (number_range d 14 2 Hb ltac:(lia)) as Nh. pose proof (number_range d 17 1 Hb ltac:(lia)) as Nf.
  destruct (level_cols_eq (number d 12 2) level ltac:(lia) ltac:(lia)) as [E1 HW]. destruct (level_cols_eq (number d 14 2) level ltac:(lia) ltac:(lia)) as [E2 HH].
  pose proof (level_cols_le (number d 12 2) level ltac:(lia) Hl) as HW2. pose proof (level_cols_le (number d 14 2) level ltac:(lia) Hl) as HH2.
  rewrite (Z.max_comm 1 (Z.shiftr (number d 12 2) level)), (Z.max_comm 1 (Z.shiftr (number d 14 2) level)), E1, E2 in H.
  rewrite !(Z.max_r 1) in H by lia. set (W := level_cols (number d 12 2) level) in *. set (H0 := level_cols (number d 14 2) level) in *.
  step H. step H. step H. step H. injection H as _.
  unfold unity_crnd_unpack_level in E6. destruct (_ || _) in E6; [discriminate|]. step E6. destruct a4 as [src sz].
  pose proof (unity_block_size _ _ _ _ E3 T) as Er. subst a0. rewrite (unity_texels_size _ _ _ T) in *.
  assert (u_block_size (number d 18 1) = 8 \/ u_block_size (number d 18 1) = 16) as Hr.
  { unfold u_block_size. match goal with |- context [if ?b then _ else _] => destruct b end; auto. }
  set (B := u_block_size (number d 18 1)) in *.
  rewrite ua_ok in E4 by lia. injection E4 as <-.
  apply ua_le in E5; [|destruct Hr as [X|X]; rewrite X; nia|lia].
  eapply (unity_level_2_faces m a src sz a2 level W H0); [..|rewrite EH; exact E6]; rewrite ?EH; cbn [h_width h_height h_faces h_format header_at]; auto; try lia.
Qed.

(** ** Levels of 4 GiB: the size does not fit in 32 bits *)
Lemma huge_size m W H B p t : 1 <= W <= 2 ^ 14 -> 1 <= H <= 2 ^ 14 -> B = 8 \/ B = 16 -> 2 ^ 32 <= W * H * B ->
  ua m 32 (W * B) = Ok p -> ua m 32 (p * H) = Ok t -> t = 0.
Proof.
  intros HW HH HB Hz E1 E2. rewrite ua_ok in E1 by (destruct HB; subst B; lia). inversion E1. subst p. clear E1.
  assert (W * H <= 2 ^ 14 * 2 ^ 14) as P by (apply Z.mul_le_mono_nonneg; lia).
  assert (W * B * H = 2 ^ 32) as EZ by (replace (W * B * H) with (W * H * B) by ring; destruct HB; subst B; lia).
  rewrite EZ in E2. destruct m; [rewrite ua_panics in E2 by lia; discriminate|]. rewrite ua_wraps in E2 by lia. inversion E2. reflexivity.
Qed.
Lemma crunch_huge_never m d level r : bytes d -> 0 <= level ->
  2 ^ 32 <= level_cols (number d 12 2) level * level_cols (number d 14 2) level * block_size_of (number d 18 1) ->
  crunch_unpack_level m d (zlen d) level <> Ok r.
Proof.
  intros Hb Hl HZ H. destruct r as [fr dxt]. pose proof H as H'. destruct (unpack_facts m d level fr dxt Hb Hl H') as (-> & _ & raw & tex & T & _). clear H'.
  unfold crunch_unpack_level in H. step H. apply or_err_inv in E. destruct (info_inv d a Hb E) as (-> & L1 & L2 & WF & F15).
  step H. pose proof (begin_header m d a Hb E0) as EH. cbn [i_width i_height i_format info_at] in H.
  pose proof (number_range d 12 2 Hb ltac:(lia)) as Nw. pose proof (number_range d 14 2 Hb ltac:(lia)) as Nh.
  destruct (level_cols_eq (number d 12 2) level ltac:(lia) ltac:(lia)) as [E1 HW]. destruct (level_cols_eq (number d 14 2) level ltac:(lia) ltac:(lia)) as [E2 HH].
  pose proof (level_cols_le (number d 12 2) level ltac:(lia) Hl) as HW2. pose proof (level_cols_le (number d 14 2) level ltac:(lia) Hl) as HH2.
  rewrite (Z.max_comm 1 (Z.shiftr (number d 12 2) level)), (Z.max_comm 1 (Z.shiftr (number d 14 2) level)), E1, E2 in H.
  rewrite !(Z.max_r 1) in H by lia. set (W := level_cols (number d 12 2) level) in *. set (H0 := level_cols (number d 14 2) level) in *.
  step H. step H. step H. step H. injection H as _.
  pose proof (block_size _ _ _ _ E3 T) as Er. subst a0.
  assert (raw = block_size_of (number d 18 1)) as Er.
  { clear - T. unfold crunch_texels in T. unfold block_size_of. 
    repeat match type of T with (if ?b then _ else _) = _ => destruct b eqn:? end; try discriminate; apply some_pair in T; destruct T as [<- _]; 
    repeat match goal with |- context [?a =? ?b] => destruct (Z.eqb_spec a b) end; cbn [orb]; try reflexivity; lia. }
  assert (a2 = 0) as ->.
  { apply (huge_size m W H0 raw a1 a2); auto; [rewrite Er; unfold block_size_of; destruct (_ || _); auto|rewrite Er; exact HZ]. }
  discriminate E6.
Qed.
Lemma unity_huge_never m d level r : bytes d -> 0 <= level ->
  2 ^ 32 <= level_cols (number d 12 2) level * level_cols (number d 14 2) level * u_block_size (number d 18 1) ->
  unity_crunch_unpack_level m d (zlen d) level <> Ok r.
Proof.
  intros Hb Hl HZ H. destruct r as [fr dxt]. pose proof H as H'. destruct (unity_unpack_facts m d level fr dxt Hb Hl H') as (-> & _ & raw & tex & T & _). clear H'.
  unfold unity_crunch_unpack_level in H. step H. apply or_err_inv in E. destruct (info_inv d a Hb E) as (-> & L1 & L2 & WF & F15).
  step H. pose proof (unity_begin_header m d a Hb E0) as EH. cbn [i_width i_height i_format info_at] in H.
  pose proof (number_range d 12 2 Hb ltac:(lia)) as Nw. pose proof (number_range d 14 2 Hb ltac:(lia)) as Nh.
  destruct (level_cols_eq (number d 12 2) level ltac:(lia) ltac:(lia)) as [E1 HW]. destruct (level_cols_eq (number d 14 2) level ltac:(lia) ltac:(lia)) as [E2 HH].
  pose proof (level_cols_le (number d 12 2) level ltac:(lia) Hl) as HW2. pose proof (level_cols_le (number d 14 2) level ltac:(lia) Hl) as HH2.
  rewrite (Z.max_comm 1 (Z.shiftr (number d 12 2) level)), (Z.max_comm 1 (Z.shiftr (number d 14 2) level)), E1, E2 in H.
  rewrite !(Z.max_r 1) in H by lia. set (W := level_cols (number d 12 2) level) in *. set (H0 := level_cols (number d 14 2) level) in *.
  step H. step H. step H. step H. injection H as _.
  pose proof (unity_block_size _ _ _ _ E3 T) as Er. subst a0. rewrite (unity_texels_size _ _ _ T) in *.
  assert (a2 = 0) as ->.
  { apply (huge_size m W H0 (u_block_size (number d 18 1)) a1 a2); auto. unfold u_block_size. destruct (_ || _); auto. }
  discriminate E6.
Qed.
