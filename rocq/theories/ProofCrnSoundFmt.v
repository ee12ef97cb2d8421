(** * Proofs about what any data whatever unpacks to, by format. *)
From Verif Require Import Base BaseLemmas ModelCrn ModelCrunch SpecCrn SpecCrnLevel SpecCrnSound SpecLoops
  ProofAstcRange ProofHuff ProofCrnIndex ProofCrnGrid ProofCrnLevel ProofLoops ProofCrnDecode ProofCrnSound.

Lemma ok_inj {A} (a b : A) : Ok a = Ok b -> a = b.
Proof. congruence. Qed.

(** ** Symbols *)
Lemma sort_symbols_words m ns sizes nc tu sp so sp' so' : sort_symbols m ns sizes nc tu sp so = Ok (sp', so') -> words so -> words so'.
Proof.
  intros E Hw. unfold sort_symbols in E.
  assert (G : forall l (s s' : list Z * list Z), words (snd s) -> for_list l (fun i st =>
    let '(sorted_positions, sorted) := st in
    let* c := idx sizes i in
    if c =? 0 then Ok (sorted_positions, sorted)
    else
      let* n := idx nc c in
      if n =? 0 then Err ""
      else
        let* sorted_pos := idx sorted_positions c in
        let* next := ua m 32 (sorted_pos + 1) in
        let* sorted_positions := upd sorted_positions c next in
        if tu <=? sorted_pos then Err ""
        else
          let* sorted := upd sorted sorted_pos (u16 i) in
          Ok (sorted_positions, sorted)) s = Ok s' -> words (snd s')).
  { induction l as [|i l IH]; intros [p s] s' Hs E'; cbn [for_list] in E'; [inversion E'; subst; exact Hs|]. step E'. apply IH in E'; [exact E'|].
    step E0. destruct (a0 =? 0); [inversion E0; subst; exact Hs|]. step E0. destruct (a1 =? 0); [discriminate|]. step E0. step E0. step E0.
    destruct (tu <=? a2); [discriminate|]. step E0. inversion E0; subst. cbn [snd] in *.
    eapply upd_forall; [exact Hs| |exact E6]. unfold u16. apply Z.mod_pos_bound. lia. }
  exact (G _ (sp, so) (sp', so') Hw E).
Qed.

Lemma prepare_words m sizes md : prepare_decoder_tables m sizes = Ok md -> words (t_sorted (m_tables md)).
Proof.
  unfold prepare_decoder_tables. cbv zeta. destruct (negb _); [discriminate|]. intros E. step E. inversion E; subst. cbn [m_tables].
  unfold tables_init in E0. destruct ((zlen sizes =? 0) || (MAX_TABLE_BITS <? compute_decoder_table_bits (zlen sizes))); [discriminate|].
  step E0. step E0. step E0. destruct a2 as [p sorted]. step E0. step E0. step E0. destruct a4 as [tmc start]. step E0. step E0.
  inversion E0; subst. cbn [t_sorted]. eapply sort_symbols_words; [eassumption|]. unfold fresh_sorted.
  destruct (0 <? _); [|constructor]. apply Forall_forall. intros v I. apply repeat_spec in I. subst. lia.
Qed.
Lemma lookup_symbol_word m md buf s len : usable m md -> lookup_symbol m md buf = Ok (s, len) -> 0 <= s < 65536.
Proof.
  intros U E.
  assert (words (t_sorted (m_tables md))) as Hw by (destruct U as [->|[sizes P]]; [constructor|exact (prepare_words m sizes md P)]).
  unfold lookup_symbol in E. destruct (Z.shiftr buf 16 + 1 <=? t_table_max_code (m_tables md)).
  - step E. step E. destruct (a0 =? 2 ^ 32 - 1); [discriminate|]. step E. destruct (negb (a1 =? Z.shiftr a0 16)); [discriminate|]. inversion E; subst.
    change 65535 with (Z.ones 16). rewrite Z.land_ones by lia. apply Z.mod_pos_bound. lia.
  - step E. step E. step E. step E. step E. step E. destruct (m_total_syms md <=? u32 a4); [discriminate|]. step E. inversion E; subst.
    pose proof (idx_range _ _ _ E6) as R. rewrite idx_ok in E6 by exact R. inversion E6. apply words_znth. exact Hw.
Qed.
Lemma decode_word m md c s c' : usable m md -> decode m md c = Ok (s, c') -> 0 <= s < 65536.
Proof. intros U E. unfold decode in E. step E. step E. destruct a0 as [sym len]. step E. inversion E; subst. exact (lookup_symbol_word _ _ _ _ _ U E1). Qed.

Lemma limit_bound m x n v : 0 <= x < 2 ^ 31 -> 0 <= n < 2 ^ 31 -> limit m x n = Ok v -> 0 <= v <= x.
Proof.
  intros Hx Hn. unfold limit.
  assert (forall v, 0 <= v < 2 ^ 31 -> swrap 32 v = v) as S.
  { intros w Hv. unfold swrap. rewrite Z.mod_small by lia. destruct (Z.ltb_spec w (2 ^ (32 - 1))); lia. }
  rewrite !S by lia. rewrite ia_ok by lia. cbn [bind].
  destruct (Z.leb_spec n x) as [L|L].
  - assert (Z.shiftr (x - n) 31 = 0) as -> by (rewrite shr_div by lia; apply Z.div_small; lia).
    rewrite Z.land_0_r, Z.lor_0_l. change (Z.lnot 0) with (-1). rewrite Z.land_m1_r.
    unfold u32. rewrite Z.mod_small by lia. intros E. assert (v = x - n) by congruence. lia.
  - assert (Z.shiftr (x - n) 31 = -1) as ->.
    { rewrite shr_div by lia. symmetry. apply Z.div_unique with (x - n + 2 ^ 31); lia. }
    change (Z.lnot (-1)) with 0. rewrite Z.land_m1_r, Z.land_0_r, Z.lor_0_r.
    unfold u32. rewrite Z.mod_small by lia. intros E. assert (v = x) by congruence. lia.
Qed.
Lemma next_index_bound m msg dm n prev cd p cd' : usable m dm -> 0 <= n < 65536 -> 0 <= prev <= 2 ^ 20 ->
  next_index m msg dm n prev cd = Ok (p, cd') -> 0 <= p <= prev + 65536.
Proof.
  intros U Hn Hp E. unfold next_index in E. step E. destruct a as [d c]. apply or_err_inv in E0. apply decode_word in E0; [|exact U].
  rewrite ua_ok in E by lia. cbn [bind] in E. step E. apply limit_bound in E1; [|lia|lia]. inversion E; subst. lia.
Qed.

(** ** Cuts, end points, selectors *)
Lemma next_encoding_inv m msg u bits cd e bits' cd' : next_encoding m msg u bits cd = Ok (e, bits', cd') -> 0 <= e < 8.
Proof.
  intros E. unfold next_encoding in E. step E. destruct a as [b c]. inversion E; subst. change 7 with (Z.ones 3). rewrite Z.land_ones by lia.
  apply Z.mod_pos_bound. lia.
Qed.
Lemma tile_endpoints_inv m msg dm pal nt prev cd eps prev' cd' : 0 <= nt <= 4 -> tile_endpoints m msg dm pal nt prev cd = Ok (eps, prev', cd') ->
  zlen eps = 4 /\ exists ep, forall t, 0 <= t < nt -> 0 <= ep t < zlen pal /\ znth eps t = znth pal (ep t).
Proof.
  intros Hn E. unfold tile_endpoints in E.
  refine (for_range_ok_inv (fun i (st : list Z * Z * codec) => zlen (fst (fst st)) = 4 /\
    exists ep, forall t, 0 <= t < i -> 0 <= ep t < zlen pal /\ znth (fst (fst st)) t = znth pal (ep t)) 0 nt _ _ _ ltac:(lia) _ _ E); cbn [fst snd].
  - split; [reflexivity|]. exists (fun _ => 0). intros t Ht. lia.
  - clear. intros i [[eps prev] cd] s' Hi (L & ep & H) E. cbn [fst snd] in *. step E. destruct a as [p c]. step E. step E. inversion E; subst. cbn [fst snd].
    apply upd_inv in E2 as [R ->]. split; [rewrite zlen_replace_nth; exact L|]. pose proof (idx_range _ _ _ E1) as R1. rewrite idx_ok in E1 by exact R1. inversion E1; subst.
    exists (fun t => if t =? i then p else ep t). intros t Ht. rewrite znth_replace by (try lia). destruct (Z.eqb_spec t i) as [->|N].
    + split; [exact R1|reflexivity].
    + apply H. lia.
Qed.
Lemma idx_inv l i v : idx l i = Ok v -> 0 <= i < zlen l /\ v = znth l i.
Proof. intros E. pose proof (idx_range _ _ _ E) as R. rewrite idx_ok in E by exact R. inversion E. auto. Qed.
Lemma from_inv {A} (l r : list A) a : slice_from l a = Ok r -> 0 <= a <= zlen l.
Proof.
  unfold slice_from. destruct (Z.leb_spec 0 a); cbn [andb]; [|discriminate].
  destruct (Z.leb_spec a (zlen l)); [lia|discriminate].
Qed.
Lemma alpha_words_inv m u i w0 w1 w2 : 0 <= i <= 2 ^ 20 -> alpha_words m u i = Ok (w0, w1, w2) ->
  0 <= i < zlen (u_alpha_selectors u) / 3 /\ w0 = znth (u_alpha_selectors u) (3 * i) /\
  w1 = znth (u_alpha_selectors u) (3 * i + 1) /\ w2 = znth (u_alpha_selectors u) (3 * i + 2).
Proof.
  intros Hi E. unfold alpha_words in E. rewrite ua_ok in E by lia. cbn [bind] in E. step E. pose proof (from_inv _ _ _ E0) as R.
  rewrite slice_from_ok in E0 by lia. inversion E0; subst a. clear E0. step E. step E. step E.
  apply idx_inv in E0 as [R0 ->]. apply idx_inv in E1 as [R1 ->]. apply idx_inv in E2 as [R2 ->]. rewrite zlen_skipn in R2. rewrite !znth_skipn in E by lia.
  inversion E. split; [split; [lia|apply Z.le_succ_l, Z.div_le_lower_bound; lia]|].
  rewrite Z2Nat.id, (Z.mul_comm i 3), Z.add_0_r by lia. auto.
Qed.

Section Formats.
Context (m : build) (u : unpacker) (W H faces : Z).
Hypothesis HW : 1 <= W.
Hypothesis HH : 1 <= H.
Hypothesis HF : 1 <= faces.
Hypothesis HS : faces = 1 \/ H mod 2 = 0.
Notation cc := (chunk_cols W).
Notation cr := (chunk_rows H).
Notation num := (num_chunks W H faces).
Notation C := (chunk_no W H).
Notation AE := (u_alpha_endpoints u).
Notation AS := (u_alpha_selectors u).
Notation an := (p_num (h_alpha_selectors (u_header u))).
Notation CE := (u_color_endpoints u).
Notation CS := (u_color_selectors u).
Notation ap := (alpha_plane AE AS).
Notation cp := (color_plane CE CS).
(** What holds of any unpacker. *)
Definition alpha_sound : Prop :=
  words AE /\ words AS /\ 0 <= an < 65536 /\ zlen AS <= 3 * 65535 /\ usable m (u_selector_dm1 u).

Lemma inside_0 x y : 0 <= x < cc -> 0 <= y < cr -> inside W H x y 0 = true.
Proof.
  intros Hx Hy. unfold inside. change (0 mod 2) with 0. change (0 / 2) with 0. pose proof (cols_bounds W HW). pose proof (rows_bounds H HH).
  apply andb_true_intro. split; apply Z.ltb_lt; lia.
Qed.

(** How far an index may have run away after [k] blocks: blocks outside the
    picture are not checked. *)
Definition strays (k al : Z) : Prop := 0 <= al <= (if k =? 0 then 4 else k) * 65536.
Lemma strays_room k al : 0 <= k < 4 -> strays k al -> 0 <= al <= 2 ^ 18.
Proof. intros Hk. unfold strays. destruct (Z.eqb_spec k 0); lia. Qed.
Lemma strays_seen k al : 0 <= k -> 0 <= al < 65536 -> strays (k + 1) al.
Proof. intros Hk Ha. unfold strays. destruct (Z.eqb_spec (k + 1) 0); lia. Qed.
Lemma strays_hidden k al al' : 0 < k -> strays k al -> 0 <= al' <= al + 65536 -> strays (k + 1) al'.
Proof. intros Hk. unfold strays. destruct (Z.eqb_spec k 0), (Z.eqb_spec (k + 1) 0); lia. Qed.
Lemma strays_chunk al : strays 4 al <-> strays 0 al.
Proof. reflexivity. Qed.
Lemma sels_small i : alpha_sound -> i < zlen AS / 3 -> i < 65536.
Proof. intros (_ & _ & _ & L & _) Hi. assert (zlen AS / 3 <= 65535) by (apply Z.div_le_upper_bound; lia). lia. Qed.

(** Reading an end point through a tile. *)
Lemma tile_read e tl k pal eps ep t v : 0 <= e < 8 -> 0 <= k < 4 -> idx CRND_CHUNK_ENCODING_TILES e = Ok tl ->
  (forall t, 0 <= t < num_tiles e -> 0 <= ep t < zlen pal /\ znth eps t = znth pal (ep t)) ->
  idx tl k = Ok t -> idx eps t = Ok v -> v = znth pal (ep (tile_of e k)).
Proof.
  intros He Hk Et Hep E1 E2. destruct (tiles_ok e He) as (_ & _ & tl' & Et' & K). rewrite Et in Et'. inversion Et'; subst tl'.
  destruct (K k Hk) as [E R]. rewrite E in E1. inversion E1; subst t. apply idx_inv in E2 as [_ ->]. apply (Hep _ R).
Qed.

(** *** DXT5A *)
Section Dxt5a.
Hypothesis HA : alpha_sound.
Hypothesis HP : W * 8 < 2 ^ 20.
Hypothesis HL : last_chunk W H faces 8 + loop_reach m H 8 < 2 ^ 31.
Hypothesis HK : last_chunk W H faces 8 + block_reach m W H 8 < 2 ^ 31.
Hypothesis HFH : faces * (2 * chunk_rows H) * 8 < 2 ^ 28.
Hypothesis HZ : faces * H * W * 8 < 2 ^ 62.
Notation done := (done W H faces 8 [ap]).
Notation within := (within W H faces 8 [ap]).

Lemma dxt5a_chunk_inv f x y bits ae al cd dst bits' ae' al' cd' dst' : 0 <= f < faces -> 0 <= x < cc -> 0 <= y < cr ->
  done (C f x y) dst -> strays 0 al ->
  dxt5a_chunk m u (W * 8) (negb (2 * x + 1 <? W)) (negb (2 * y + 1 <? H)) (row_dst W H 8 f y + 2 * x * 8) (bits, ae, al, cd, dst) = Ok (bits', ae', al', cd', dst') ->
  done (C f x y + 1) dst' /\ strays 0 al'.
Proof.
  intros Hf Hx Hy Dn Sa E. unfold dxt5a_chunk in E. cbv zeta in E.
  step E. destruct a as [[e b1] cd1]. pose proof (next_encoding_inv _ _ _ _ _ _ _ _ E0) as He. clear E0.
  destruct (tiles_ok e He) as (Ent & Bt & tl & Et & Kt). rewrite Ent in E. cbn [bind] in E. rewrite Et in E. cbn [bind] in E.
  step E. destruct a as [[eps ae1] cd2]. assert (0 <= num_tiles e <= 4) as Bn by lia. destruct (tile_endpoints_inv _ _ _ _ _ _ _ _ _ _ Bn E0) as (Le & ep & Hep). clear E0.
  step E. rename E0 into E2. destruct a as [[al2 cd3] dst2]. inversion E; subst bits' ae' al' cd' dst'. clear E.
  pose proof HA as (A1 & A2 & A3 & A4 & A5).
  pose proof (chunk_blocks_inv W H faces 8 HW HH HF ltac:(lia) HS HP m
    (fun k (st : Z * codec * list Z) => strays k (fst (fst st)) /\ within e (fun _ => ep) f x y k dst (snd st)) f x y (dxt5a_block m u eps tl) (al, cd2, dst) (al2, cd3, dst2) ltac:(reflexivity) HFH HK Hf Hx Hy) as G.
  apply G in E2; cbn [fst snd] in *.
  - destruct E2 as [S2 W2]. split; [|apply strays_chunk; exact S2].
    refine (done_next W H faces 8 [ap] HW HH e (fun _ => ep) f x y dst dst2 Hf Hx Hy He _ Dn W2).
    intros p t Hp Ht. assert (p = 0) as -> by (cbn in Hp; lia). apply (proj1 (Hep t Ht)).
  - split; [exact Sa|]. apply within_start. apply (proj1 Dn).
  - clear - HA A1 A2 A3 A4 A5 He Et Hep Hf Hx Hy HW HH HF HZ. intros k pd [[al cd] dst1] st' Hk [Sk Wk] EP E. cbn [fst snd] in *.
    unfold dxt5a_block in E. step E. destruct a as [al1 cd1]. pose proof (strays_room k al Hk Sk) as Rm. apply next_index_bound in E0; [|assumption|lia|lia].
    destruct (inside W H x y k) eqn:I.
    + step E. step E. destruct a0 as [[w0 w1] w2]. step E. step E. inversion E; subst st'. clear E. cbn [fst snd].
      apply alpha_words_inv in E2 as (R & -> & -> & ->); [|lia]. pose proof (tile_read e tl k AE eps ep a a0 He Hk Et Hep E1 E3) as ->.
      specialize (EP eq_refl). pose proof (pd_ok W H 8 f x y k ltac:(reflexivity)) as P4. rewrite <- EP in P4.
      pose proof (block_no_range W H faces HW HH HF f x y k Hf ltac:(lia) ltac:(lia) Hk I) as BR. pose proof (proj1 Wk) as LD.
      rewrite write_alpha_ok in E4 by (try (apply words_znth; assumption); lia). apply ok_inj in E4. subst a1.
      split; [apply strays_seen; [lia|split; [lia|apply sels_small; [exact HA|apply R]]]|]. rewrite P4.
      refine (within_visible W H faces 8 [ap] HW HH HF ltac:(lia) e (fun _ => ep) f x y k dst dst1 (fun _ => al1) _ Hf Hx Hy Hk I Wk _ _ _).
      * intros p Hp. assert (p = 0) as -> by (cbn in Hp; lia). exact R.
      * unfold block_with. change (plane_nos [ap]) with [0]. cbn [flat_map]. rewrite app_nil_r. reflexivity.
      * rewrite !zlen_app, !zlen_le by lia. reflexivity.
    + inversion E; subst st'. cbn [fst snd]. split; [|apply within_hidden; assumption].
      apply strays_hidden with al; [|exact Sk|lia]. destruct (Z.eq_dec k 0) as [->|]; [|lia]. rewrite inside_0 in I by assumption. discriminate.
Qed.
Lemma unpack_dxt5a_inv cd dst out : h_faces (u_header u) = faces -> zlen dst = faces * H * W * 8 ->
  unpack_dxt5a m u cd dst (W * 8) W H cc cr = Ok out ->
  exists P, all_fit [ap] P W H faces /\ out = chunk_picture [ap] P W H faces.
Proof.
  intros Ef L E. unfold unpack_dxt5a in E. rewrite Ef in E. step E. destruct a as [[[[b ae] al] cd'] dst']. inversion E; subst dst'. clear E.
  pose proof (chunk_loops_inv W H faces 8 HW HH HF ltac:(lia) HS HP m
    (fun n (st : Z * Z * Z * codec * list Z) => done n (snd st) /\ strays 0 (snd (fst (fst st)))) (dxt5a_chunk m u (W * 8)) (1, 0, 0, cd, dst) (b, ae, al, cd', out) HL) as G.
  apply G in E0; cbn [fst snd] in *.
  - apply (done_picture W H faces 8 [ap]); try assumption; try lia. apply E0.
  - split; [|unfold strays; cbn; lia]. split; [exact L|]. intros n' Hn'. lia.
  - clear G E0. intros f x y [[[[b1 ae1] al1] cd1] dst1] [[[[b2 ae2] al2] cd2] dst2] Hf Hx Hy [D1 S1] E. cbn [fst snd] in *. eapply dxt5a_chunk_inv; eauto.
Qed.
End Dxt5a.

(** *** DXT5 *)
Section Dxt5.
Hypothesis HA : alpha_sound.
Hypothesis HP : W * 16 < 2 ^ 20.
Hypothesis HL : last_chunk W H faces 16 + loop_reach m H 16 < 2 ^ 31.
Hypothesis HK : last_chunk W H faces 16 + block_reach m W H 16 < 2 ^ 31.
Hypothesis HFH : faces * (2 * chunk_rows H) * 16 < 2 ^ 28.
Hypothesis HZ : faces * H * W * 16 < 2 ^ 62.
Notation done := (done W H faces 16 [ap; cp]).
Notation within := (within W H faces 16 [ap; cp]).

Lemma dxt5_chunk_inv f x y bits ce cs ae al cd dst bits' ce' cs' ae' al' cd' dst' : 0 <= f < faces -> 0 <= x < cc -> 0 <= y < cr ->
  done (C f x y) dst -> strays 0 al ->
  dxt5_chunk m u (W * 16) (negb (2 * x + 1 <? W)) (negb (2 * y + 1 <? H)) (row_dst W H 16 f y + 2 * x * 16) (bits, ce, cs, ae, al, cd, dst) = Ok (bits', ce', cs', ae', al', cd', dst') ->
  done (C f x y + 1) dst' /\ strays 0 al'.
Proof.
  intros Hf Hx Hy Dn Sa E. unfold dxt5_chunk in E. cbv zeta in E.
  step E. destruct a as [[e b1] cd1]. pose proof (next_encoding_inv _ _ _ _ _ _ _ _ E0) as He. clear E0.
  destruct (tiles_ok e He) as (Ent & Bt & tl & Et & Kt). rewrite Ent in E. cbn [bind] in E. rewrite Et in E. cbn [bind] in E. assert (0 <= num_tiles e <= 4) as Bn by lia.
  step E. destruct a as [[aeps ae1] cd2]. destruct (tile_endpoints_inv _ _ _ _ _ _ _ _ _ _ Bn E0) as (Le & ep & Hep). clear E0.
  step E. destruct a as [[ceps ce1] cd3]. destruct (tile_endpoints_inv _ _ _ _ _ _ _ _ _ _ Bn E0) as (Le2 & cp2 & Hcp). clear E0.
  step E. rename E0 into E2. destruct a as [[[cs2 al2] cd4] dst2]. inversion E; subst bits' ce' cs' ae' al' cd' dst'. clear E.
  pose proof HA as (A1 & A2 & A3 & A4 & A5).
  pose proof (chunk_blocks_inv W H faces 16 HW HH HF ltac:(lia) HS HP m
    (fun k (st : Z * Z * codec * list Z) => strays k (snd (fst (fst st))) /\ within e (fun p => if p =? 0 then ep else cp2) f x y k dst (snd st)) f x y
    (dxt5_block m u ceps aeps tl) (cs, al, cd3, dst) (cs2, al2, cd4, dst2) ltac:(reflexivity) HFH HK Hf Hx Hy) as G.
  apply G in E2; cbn [fst snd] in *; clear G.
  - destruct E2 as [S2 W2]. split; [|apply strays_chunk; exact S2].
    refine (done_next W H faces 16 [ap; cp] HW HH e _ f x y dst dst2 Hf Hx Hy He _ Dn W2).
    intros p t Hp Ht. assert (p = 0 \/ p = 1) as [-> | ->] by (cbn in Hp; lia); [apply (proj1 (Hep t Ht))|apply (proj1 (Hcp t Ht))].
  - split; [exact Sa|]. apply within_start. apply (proj1 Dn).
  - clear - HA A1 A2 A3 A4 A5 He Et Hep Hcp Hf Hx Hy HW HH HF HZ. intros k pd [[[cs al] cd] dst1] st' Hk [Sk Wk] EP E. cbn [fst snd] in *.
    unfold dxt5_block in E. cbv zeta in E. step E. destruct a as [al1 cd1]. pose proof (strays_room k al Hk Sk) as Rm. apply next_index_bound in E0; [|assumption|lia|lia].
    step E. clear E1. destruct a as [cs1 cd2].
    destruct (inside W H x y k) eqn:I.
    + step E. step E. destruct a0 as [[w0 w1] w2]. step E. step E. step E. step E. step E. step E. inversion E; subst st'. clear E. cbn [fst snd].
      apply alpha_words_inv in E2 as (R & -> & -> & ->); [|lia]. pose proof (tile_read e tl k AE aeps ep a a0 He Hk Et Hep E1 E3) as ->.
      pose proof (tile_read e tl k CE ceps cp2 a a2 He Hk Et Hcp E1 E5) as ->. apply idx_inv in E7 as [R2 ->].
      specialize (EP eq_refl). pose proof (pd_ok W H 16 f x y k ltac:(reflexivity)) as P4. rewrite <- EP in P4.
      pose proof (block_no_range W H faces HW HH HF f x y k Hf ltac:(lia) ltac:(lia) Hk I) as BR. pose proof (proj1 Wk) as LD.
      rewrite write_alpha_ok in E4 by (try (apply words_znth; assumption); lia). apply ok_inj in E4. subst a1.
      rewrite (put_more m dst1 (4 * pd) _ _ (pd + 2) _) in E6 by (try reflexivity; rewrite ?zlen_app, ?zlen_le; lia). apply ok_inj in E6. subst a3.
      rewrite (put_more m dst1 (4 * pd) _ _ (pd + 3) _) in E8 by (try reflexivity; rewrite ?zlen_app, ?zlen_le; lia). apply ok_inj in E8. subst a5.
      split; [apply strays_seen; [lia|split; [lia|apply sels_small; [exact HA|apply R]]]|]. rewrite P4.
      refine (within_visible W H faces 16 [ap; cp] HW HH HF ltac:(lia) e _ f x y k dst dst1 (fun p => if p =? 0 then al1 else cs1) _ Hf Hx Hy Hk I Wk _ _ _).
      * intros p Hp. assert (p = 0 \/ p = 1) as [-> | ->] by (cbn in Hp; lia); [exact R|exact R2].
      * unfold block_with. change (plane_nos [ap; cp]) with [0; 1]. cbn [flat_map]. rewrite app_nil_r.
        change (plane_at [ap; cp] 0) with ap. change (plane_at [ap; cp] 1) with cp. change (0 =? 0) with true. change (1 =? 0) with false. cbn [pl_block alpha_plane color_plane].
        rewrite <- !app_assoc. reflexivity.
      * rewrite !zlen_app, !zlen_le by lia. reflexivity.
    + inversion E; subst st'. cbn [fst snd]. split; [|apply within_hidden; assumption].
      apply strays_hidden with al; [|exact Sk|lia]. destruct (Z.eq_dec k 0) as [->|]; [|lia]. rewrite inside_0 in I by assumption. discriminate.
Qed.
Lemma unpack_dxt5_inv cd dst out : h_faces (u_header u) = faces -> zlen dst = faces * H * W * 16 ->
  unpack_dxt5 m u cd dst (W * 16) W H cc cr = Ok out ->
  exists P, all_fit [ap; cp] P W H faces /\ out = chunk_picture [ap; cp] P W H faces.
Proof.
  intros Ef L E. unfold unpack_dxt5 in E. rewrite Ef in E. step E. destruct a as [[[[[[b ce] cs] ae] al] cd'] dst']. inversion E; subst dst'. clear E.
  pose proof (chunk_loops_inv W H faces 16 HW HH HF ltac:(lia) HS HP m
    (fun n (st : dxt5_state) => done n (snd st) /\ strays 0 (snd (fst (fst st)))) (dxt5_chunk m u (W * 16)) (1, 0, 0, 0, 0, cd, dst) (b, ce, cs, ae, al, cd', out) HL) as G.
  apply G in E0; cbn [fst snd] in *.
  - apply (done_picture W H faces 16 [ap; cp]); try assumption; try lia. apply E0.
  - split; [|unfold strays; cbn; lia]. split; [exact L|]. intros n' Hn'. lia.
  - clear G E0. intros f x y [[[[[[b1 ce1] cs1] ae1] al1] cd1] dst1] [[[[[[b2 ce2] cs2] ae2] al2] cd2] dst2] Hf Hx Hy [D1 S1] E. cbn [fst snd] in *. eapply dxt5_chunk_inv; eauto.
Qed.
End Dxt5.

(** *** DXN *)
Section Dxn.
Hypothesis HA : alpha_sound.
Hypothesis HP : W * 16 < 2 ^ 20.
Hypothesis HL : last_chunk W H faces 16 + loop_reach m H 16 < 2 ^ 31.
Hypothesis HK : last_chunk W H faces 16 + block_reach m W H 16 < 2 ^ 31.
Hypothesis HFH : faces * (2 * chunk_rows H) * 16 < 2 ^ 28.
Hypothesis HZ : faces * H * W * 16 < 2 ^ 62.
Notation done := (done W H faces 16 [ap; ap]).
Notation within := (within W H faces 16 [ap; ap]).

Lemma dxn_chunk_inv f x y bits e0 s0 e1 s1 cd dst bits' e0' s0' e1' s1' cd' dst' : 0 <= f < faces -> 0 <= x < cc -> 0 <= y < cr ->
  done (C f x y) dst -> strays 0 s0 /\ strays 0 s1 ->
  dxn_chunk m u (W * 16) (negb (2 * x + 1 <? W)) (negb (2 * y + 1 <? H)) (row_dst W H 16 f y + 2 * x * 16) (bits, e0, s0, e1, s1, cd, dst) = Ok (bits', e0', s0', e1', s1', cd', dst') ->
  done (C f x y + 1) dst' /\ strays 0 s0' /\ strays 0 s1'.
Proof.
  intros Hf Hx Hy Dn Sa E. unfold dxn_chunk in E. cbv zeta in E.
  step E. destruct a as [[e b1] cd1]. pose proof (next_encoding_inv _ _ _ _ _ _ _ _ E0) as He. clear E0.
  destruct (tiles_ok e He) as (Ent & Bt & tl & Et & Kt). rewrite Ent in E. cbn [bind] in E. rewrite Et in E. cbn [bind] in E. assert (0 <= num_tiles e <= 4) as Bn by lia.
  step E. destruct a as [[eps0 ae1] cd2]. destruct (tile_endpoints_inv _ _ _ _ _ _ _ _ _ _ Bn E0) as (Le & ep & Hep). clear E0.
  step E. destruct a as [[eps1 ce1] cd3]. destruct (tile_endpoints_inv _ _ _ _ _ _ _ _ _ _ Bn E0) as (Le2 & cp2 & Hcp). clear E0.
  step E. rename E0 into E2. destruct a as [[[t0 t1] cd4] dst2]. inversion E; subst bits' e0' s0' e1' s1' cd' dst'. clear E.
  pose proof HA as (A1 & A2 & A3 & A4 & A5).
  pose proof (chunk_blocks_inv W H faces 16 HW HH HF ltac:(lia) HS HP m
    (fun k (st : Z * Z * codec * list Z) => (strays k (fst (fst (fst st))) /\ strays k (snd (fst (fst st)))) /\ within e (fun p => if p =? 0 then ep else cp2) f x y k dst (snd st)) f x y
    (dxn_block m u eps0 eps1 tl) (s0, s1, cd3, dst) (t0, t1, cd4, dst2) ltac:(reflexivity) HFH HK Hf Hx Hy) as G.
  apply G in E2; cbn [fst snd] in *; clear G.
  - destruct E2 as [[S2 S3] W2]. split; [|split; apply strays_chunk; assumption].
    refine (done_next W H faces 16 [ap; ap] HW HH e _ f x y dst dst2 Hf Hx Hy He _ Dn W2).
    intros p t Hp Ht. assert (p = 0 \/ p = 1) as [-> | ->] by (cbn in Hp; lia); [apply (proj1 (Hep t Ht))|apply (proj1 (Hcp t Ht))].
  - split; [exact Sa|]. apply within_start. apply (proj1 Dn).
  - clear - HA A1 A2 A3 A4 A5 He Et Hep Hcp Hf Hx Hy HW HH HF HZ. intros k pd [[[s0 s1] cd] dst1] st' Hk [[Sk Sk2] Wk] EP E. cbn [fst snd] in *.
    unfold dxn_block in E. cbv zeta in E. step E. destruct a as [i0 cd1]. pose proof (strays_room k s0 Hk Sk) as Rm. apply next_index_bound in E0; [|assumption|lia|lia].
    step E. destruct a as [i1 cd2]. pose proof (strays_room k s1 Hk Sk2) as Rm2. apply next_index_bound in E1; [|assumption|lia|lia].
    destruct (inside W H x y k) eqn:I.
    + step E. step E. destruct a0 as [[w0 w1] w2]. step E. destruct a0 as [[v0 v1] v2]. step E. step E. step E. step E. inversion E; subst st'. clear E. cbn [fst snd].
      apply alpha_words_inv in E3 as (R & -> & -> & ->); [|lia]. apply alpha_words_inv in E4 as (R2 & -> & -> & ->); [|lia].
      pose proof (tile_read e tl k AE eps0 ep a a0 He Hk Et Hep E2 E5) as ->.
      pose proof (tile_read e tl k AE eps1 cp2 a a2 He Hk Et Hcp E2 E7) as ->.
      specialize (EP eq_refl). pose proof (pd_ok W H 16 f x y k ltac:(reflexivity)) as P4. rewrite <- EP in P4.
      pose proof (block_no_range W H faces HW HH HF f x y k Hf ltac:(lia) ltac:(lia) Hk I) as BR. pose proof (proj1 Wk) as LD.
      rewrite write_alpha_ok in E6 by (try (apply words_znth; assumption); lia). apply ok_inj in E6. subst a1.
      assert (forall a b c d, zlen (le 2 a ++ le 2 b ++ le 2 c ++ le 2 d) = 8) as L8 by (intros; rewrite !zlen_app, !zlen_le by lia; reflexivity).
      rewrite write_alpha_ok in E8 by (try (apply words_znth; assumption); rewrite ?zlen_put; rewrite ?L8; lia). apply ok_inj in E8. subst a3.
      set (b0 := le 2 _ ++ _) at 1. set (b1 := le 2 _ ++ _).
      replace (4 * (pd + 2)) with (4 * pd + zlen b0) by (unfold b0; rewrite L8; lia). rewrite put_put by (unfold b0, b1; rewrite ?L8; lia).
      split; [split; (apply strays_seen; [lia|split; [lia|apply sels_small; [exact HA|first [apply R | apply R2]]]])|]. rewrite P4.
      refine (within_visible W H faces 16 [ap; ap] HW HH HF ltac:(lia) e _ f x y k dst dst1 (fun p => if p =? 0 then i0 else i1) _ Hf Hx Hy Hk I Wk _ _ _).
      * intros p Hp. assert (p = 0 \/ p = 1) as [-> | ->] by (cbn in Hp; lia); [exact R|exact R2].
      * unfold block_with. change (plane_nos [ap; ap]) with [0; 1]. cbn [flat_map]. rewrite app_nil_r.
        change (plane_at [ap; ap] 0) with ap. change (plane_at [ap; ap] 1) with ap. change (0 =? 0) with true. change (1 =? 0) with false. cbn [pl_block alpha_plane].
        reflexivity.
      * rewrite zlen_app. unfold b0, b1. rewrite !L8. reflexivity.
    + inversion E; subst st'. cbn [fst snd]. split; [|apply within_hidden; assumption].
      assert (0 < k) by (destruct (Z.eq_dec k 0) as [->|]; [|lia]; rewrite inside_0 in I by assumption; discriminate).
      split; [apply strays_hidden with s0|apply strays_hidden with s1]; auto; lia.
Qed.
Lemma unpack_dxn_inv cd dst out : h_faces (u_header u) = faces -> zlen dst = faces * H * W * 16 ->
  unpack_dxn m u cd dst (W * 16) W H cc cr = Ok out ->
  exists P, all_fit [ap; ap] P W H faces /\ out = chunk_picture [ap; ap] P W H faces.
Proof.
  intros Ef L E. unfold unpack_dxn in E. rewrite Ef in E. step E. destruct a as [[[[[[b ce] cs] ae] al] cd'] dst']. inversion E; subst dst'. clear E.
  pose proof (chunk_loops_inv W H faces 16 HW HH HF ltac:(lia) HS HP m
    (fun n (st : dxt5_state) => done n (snd st) /\ strays 0 (snd (fst (fst (fst (fst st))))) /\ strays 0 (snd (fst (fst st)))) (dxn_chunk m u (W * 16)) (1, 0, 0, 0, 0, cd, dst) (b, ce, cs, ae, al, cd', out) HL) as G.
  apply G in E0; cbn [fst snd] in *.
  - apply (done_picture W H faces 16 [ap; ap]); try assumption; try lia. apply E0.
  - split; [|unfold strays; cbn; lia]. split; [exact L|]. intros n' Hn'. lia.
  - clear G E0. intros f x y [[[[[[b1 ce1] cs1] ae1] al1] cd1] dst1] [[[[[[b2 ce2] cs2] ae2] al2] cd2] dst2] Hf Hx Hy [D1 S1] E. cbn [fst snd] in *. eapply dxn_chunk_inv; eauto.
Qed.
End Dxn.

(** *** DXT1 *)
Section Dxt1.
Hypothesis HP : W * 8 < 2 ^ 20.
Hypothesis HL : last_chunk W H faces 8 + loop_reach m H 8 < 2 ^ 31.
Hypothesis HZ : faces * H * W * 8 < 2 ^ 62.
Notation done := (done W H faces 8 [cp]).
Notation within := (within W H faces 8 [cp]).

Lemma dxt1_block_inv e tl eps ep f x y k pd dst0 ps cd dst st' : 0 <= f < faces -> 0 <= x < cc -> 0 <= y < cr -> 0 <= k < 4 -> 0 <= e < 8 ->
  idx CRND_CHUNK_ENCODING_TILES e = Ok tl -> (forall t, 0 <= t < num_tiles e -> 0 <= ep t < zlen CE /\ znth eps t = znth CE (ep t)) ->
  4 * pd = block_no W H f x y k * 8 -> within e (fun _ => ep) f x y k dst0 dst ->
  dxt1_part_block m u eps tl (inside W H x y k) k pd (ps, cd, dst) = Ok st' -> within e (fun _ => ep) f x y (k + 1) dst0 (snd st').
Proof.
  intros Hf Hx Hy Hk He Et Hep P4 Wk E. unfold dxt1_part_block in E. step E. clear E0. destruct a as [ps1 cd1].
  destruct (inside W H x y k) eqn:I; [|inversion E; subst st'; apply within_hidden; assumption].
  step E. step E. step E. step E. step E. inversion E; subst st'. clear E. cbn [fst snd].
  pose proof (tile_read e tl k CE eps ep a a0 He Hk Et Hep E0 E1) as ->. apply idx_inv in E3 as [R ->].
  pose proof (block_no_range W H faces HW HH HF f x y k Hf ltac:(lia) ltac:(lia) Hk I) as BR. pose proof (proj1 Wk) as LD.
  rewrite write_int_ok in E2 by lia. apply ok_inj in E2. subst a1.
  rewrite (put_more m dst (4 * pd) _ _ (pd + 1) _) in E4 by (try reflexivity; rewrite ?zlen_le; lia). apply ok_inj in E4. subst a3. rewrite P4.
  refine (within_visible W H faces 8 [cp] HW HH HF ltac:(lia) e _ f x y k dst0 dst (fun _ => ps1) _ Hf Hx Hy Hk I Wk _ _ _).
  - intros p Hp. assert (p = 0) as -> by (cbn in Hp; lia). exact R.
  - unfold block_with. change (plane_nos [cp]) with [0]. cbn [flat_map]. rewrite app_nil_r. reflexivity.
  - rewrite !zlen_app, !zlen_le by lia. reflexivity.
Qed.
Lemma dxt1_full_part eps tl k pd ps cd dst st' : dxt1_full_block m u eps tl k pd (ps, cd, dst) = Ok st' ->
  dxt1_part_block m u eps tl true k pd (ps, cd, dst) = Ok st'.
Proof.
  intros E. unfold dxt1_full_block in E. unfold dxt1_part_block. step E. step E. step E. step E. rewrite E3. cbn [bind]. rewrite E0. cbn [bind]. rewrite E1. cbn [bind]. rewrite E2. exact E.
Qed.
Lemma dxt1_chunk_inv f x y bits ce cs cd dst bits' ce' cs' cd' dst' : 0 <= f < faces -> 0 <= x < cc -> 0 <= y < cr ->
  done (C f x y) dst ->
  dxt1_chunk m u (W * 8) (negb (2 * x + 1 <? W)) (negb (2 * y + 1 <? H)) (row_dst W H 8 f y + 2 * x * 8) (bits, ce, cs, cd, dst) = Ok (bits', ce', cs', cd', dst') ->
  done (C f x y + 1) dst'.
Proof.
  intros Hf Hx Hy Dn E. unfold dxt1_chunk in E. cbv zeta in E.
  step E. destruct a as [[e b1] cd1]. pose proof (next_encoding_inv _ _ _ _ _ _ _ _ E0) as He. clear E0.
  destruct (tiles_ok e He) as (Ent & Bt & tl & Et & Kt). rewrite Ent in E. cbn [bind] in E. assert (0 <= num_tiles e <= 4) as Bn by lia.
  step E. destruct a as [[eps ce1] cd2]. destruct (tile_endpoints_inv _ _ _ _ _ _ _ _ _ _ Bn E0) as (Le & ep & Hep). clear E0.
  rewrite Et in E. cbn [bind] in E.
  assert (forall dy dx, 0 <= dy < 2 -> 0 <= dx < 2 ->
    4 * (Z.shiftr (row_dst W H 8 f y + 2 * x * 8 + W * 8 * dy) 2 + 2 * dx) = block_no W H f x y (dx + dy * 2) * 8) as PD.
  { intros dy dx Hdy Hdx. rewrite <- (pd_ok W H 8 f x y (dx + dy * 2) ltac:(reflexivity)).
    replace (dx + dy * 2) with (2 * dy + dx) by ring. destruct (half_parts dy dx Hdx) as [-> ->]. rewrite shr_div by lia. change (2 ^ 2) with 4.
    f_equal. replace (dx * 8) with (2 * dx * 4) by ring. rewrite Z.div_add by lia. do 2 f_equal. ring. }
  pose proof (x_bounds W H faces 8 HW HH HF ltac:(lia) HS HP f x y Hf Hx Hy) as (XB & _ & _).
  assert (-1 <= loop_reach m H 8) as LR by (unfold loop_reach; destruct m, (Z.odd (chunk_rows H)); lia).
  assert (within e (fun _ => ep) f x y 4 dst dst') as W4.
  2:{ refine (done_next W H faces 8 [cp] HW HH e _ f x y dst dst' Hf Hx Hy He _ Dn W4).
      intros p t Hp Ht. assert (p = 0) as -> by (cbn in Hp; lia). apply (proj1 (Hep t Ht)). }
  assert (within e (fun _ => ep) f x y 0 dst dst) as W0 by (apply within_start; apply (proj1 Dn)).
  pose proof (fun k pd ps cd dst1 st' Hk => dxt1_block_inv e tl eps ep f x y k pd dst ps cd dst1 st' Hf Hx Hy Hk He Et Hep) as B.
  destruct (Z.ltb_spec (2 * y + 1) H) as [Ly|Ly], (Z.ltb_spec (2 * x + 1) W) as [Lx|Lx]; cbn [negb andb] in E.
  1: { pose proof (PD 0 0 ltac:(lia) ltac:(lia)) as P0. pose proof (PD 0 1 ltac:(lia) ltac:(lia)) as P1.
    pose proof (PD 1 0 ltac:(lia) ltac:(lia)) as P2. pose proof (PD 1 1 ltac:(lia) ltac:(lia)) as P3.
    change (0 + 0 * 2) with 0 in P0. change (1 + 0 * 2) with 1 in P1. change (0 + 1 * 2) with 2 in P2. change (1 + 1 * 2) with 3 in P3.
    replace (W * 8 * 0) with 0 in P0, P1 by ring. replace (W * 8 * 1) with (W * 8) in P2, P3 by ring.
    change (2 * 0) with 0 in P0, P2. change (2 * 1) with 2 in P1, P3. rewrite !Z.add_0_r in P0. rewrite Z.add_0_r in P1, P2.
    assert (Z.shiftr (row_dst W H 8 f y + 2 * x * 8 + W * 8) 2 = Z.shiftr (row_dst W H 8 f y + 2 * x * 8) 2 + Z.shiftr (W * 8) 2) as SA.
    { rewrite !shr_div by lia. change (2 ^ 2) with 4. replace (W * 8) with (W * 2 * 4) by ring. rewrite Z.div_add, Z.div_mul by lia. reflexivity. }
    rewrite SA in P2, P3.
    replace (Z.shiftr (row_dst W H 8 f y + 2 * x * 8) 2 + 2 + Z.shiftr (W * 8) 2) with (Z.shiftr (row_dst W H 8 f y + 2 * x * 8) 2 + Z.shiftr (W * 8) 2 + 2) in E by ring.
    assert (forall k, 0 <= k < 4 -> inside W H x y k = true) as IA by (intros; apply inside_all; lia).
    step E. destruct a as [[ps1 c1] d1]. step E. destruct a as [[ps2 c2] d2]. step E. destruct a as [[ps3 c3] d3]. step E. destruct a as [[ps4 c4] d4].
    inversion E; subst d4. clear E. apply dxt1_full_part in E0, E1, E2, E3.
    rewrite <- (IA 0) in E0 by lia. rewrite <- (IA 1) in E1 by lia. rewrite <- (IA 2) in E2 by lia. rewrite <- (IA 3) in E3 by lia.
    apply B in E0; [|lia|exact P0|exact W0]. apply B in E1; [|lia|exact P1|exact E0]. apply B in E2; [|lia|exact P2|exact E1]. apply B in E3; [|lia|exact P3|exact E2]. exact E3. }
  all: step E; destruct a as [[ps4 c4] d4]; inversion E; subst d4; clear E.
  all: refine (for_range_ok_inv (fun by_ (st : Z * codec * list Z) => within e (fun _ => ep) f x y (by_ * 2) dst (snd st)) 0 2 _ (cs, cd2, dst) (ps4, c4, dst') ltac:(lia) W0 _ E0); clear E0.
  all: intros dy [[ps5 c5] d5] st' Hdy Ws E; cbn [fst snd] in Ws; assert (0 <= W * 8 * dy <= W * 8) as WD by nia;
      rewrite ua_ok in E by lia; cbn [bind] in E; rewrite ua_ok in E by lia; cbn [bind] in E.
  all: replace ((dy + 1) * 2) with (2 + dy * 2) by ring.
  all: refine (for_range_ok_inv (fun bx (st : Z * codec * list Z) => within e (fun _ => ep) f x y (bx + dy * 2) dst (snd st)) 0 2 _ (ps5, c5, d5) st' ltac:(lia) Ws _ E); clear E.
  all: intros dx [[ps6 c6] d6] st6 Hdx W6 E; cbn [fst snd] in W6; replace (dx + 1 + dy * 2) with (dx + dy * 2 + 1) by ring.
  all: apply (B (dx + dy * 2) _ ps6 c6 d6 st6 ltac:(lia) (PD dy dx Hdy Hdx) W6); rewrite <- E; f_equal; unfold inside;
      replace (dx + dy * 2) with (2 * dy + dx) by ring; destruct (half_parts dy dx Hdx) as [-> ->];
      pose proof (cols_bounds W HW) as CB; pose proof (rows_bounds H HH) as RB;
      destruct (Z.eqb_spec dx 0), (Z.eqb_spec dy 0), (Z.ltb_spec (2 * x + dx) W), (Z.ltb_spec (2 * y + dy) H); try lia; reflexivity.
Qed.
Lemma unpack_dxt1_inv cd dst out : h_faces (u_header u) = faces -> zlen dst = faces * H * W * 8 ->
  unpack_dxt1 m u cd dst (W * 8) W H cc cr = Ok out ->
  exists P, all_fit [cp] P W H faces /\ out = chunk_picture [cp] P W H faces.
Proof.
  intros Ef L E. unfold unpack_dxt1 in E. rewrite Ef in E. step E. destruct a as [[[[b ae] al] cd'] dst']. inversion E; subst dst'. clear E.
  pose proof (chunk_loops_inv W H faces 8 HW HH HF ltac:(lia) HS HP m
    (fun n (st : dxt1_state) => done n (snd st)) (dxt1_chunk m u (W * 8)) (1, 0, 0, cd, dst) (b, ae, al, cd', out) HL) as G.
  apply G in E0; cbn [fst snd] in *.
  - apply (done_picture W H faces 8 [cp]); try assumption; lia.
  - split; [exact L|]. intros n' Hn'. lia.
  - clear G E0. intros f x y [[[[b1 ae1] al1] cd1] dst1] [[[[b2 ae2] al2] cd2] dst2] Hf Hx Hy D1 E. cbn [fst snd] in *. eapply dxt1_chunk_inv; eauto.
Qed.
End Dxt1.
End Formats.
