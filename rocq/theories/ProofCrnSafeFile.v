(** * Proofs about crunch files whose levels hold arbitrary data. *)
From Verif Require Import Base BaseLemmas ModelCrn ModelCrunch SpecCrn SpecCrnHeader SpecCrnFile SpecCrnTexel SpecCrnLevel SpecCrnSound SpecHuff SpecCrnErr SpecCrnSafe SpecLoops
  ProofCrnHeader ProofHuff ProofCrnIndex ProofCrnGrid ProofCrnLevel ProofLoops ProofCrnFile ProofCrnDecode ProofCrnWhole ProofCrnSound ProofCrnSoundFmt ProofCrnSoundFile
  ProofHuffAll ProofCrnErr ProofCrnSafe.

(** No panic; failures say [msg]; results are [P]. *)
Definition safe {A} (inc : Prop) (msg : string) (P : A -> Prop) (r : res A) : Prop :=
  match r with Ok a => P a | Err e => e = msg /\ inc | Panic => False end.
Lemma safe_intro {A} inc msg (P : A -> Prop) r : calm inc (fun _ => True) r -> errs (eq msg) r -> (forall a, r = Ok a -> P a) -> safe inc msg P r.
Proof. unfold errs. destruct r as [a|e|]; cbn [calm safe]; intros H1 H2 H3; auto. split; [symmetry; apply H2; reflexivity|exact H1]. Qed.

Lemma start_steady src size : bytes src -> 1 <= size <= zlen src -> exists c, start_decoding src size = Ok c /\ steady c.
Proof.
  intros Hb Hs. unfold start_decoding. destruct (Z.eqb_spec size 0); [lia|].
  rewrite idx_ok by lia. cbn [bind]. eexists. split; [reflexivity|]. unfold steady, fits. cbn [c_pos c_end c_buf c_bit_count c_bit_buf]. lia.
Qed.

Section Level.
Context (m : build) (d : list Z) (u : unpacker) (level : Z) (sizes : kind -> list Z).
Let f := number d 18 1.
Let faces := number d 17 1.
Let W := level_cols (number d 12 2) level.
Let H := level_cols (number d 14 2) level.
Let planes := planes_of f (u_color_endpoints u) (u_color_selectors u) (u_alpha_endpoints u) (u_alpha_selectors u).
Let inc := exists x, In x (kinds_of planes) /\ incomplete (sizes x).

Lemma serves_intro x N : In x (kinds_of planes) -> code_lengths (sizes x) -> prepare_decoder_tables m (sizes x) = Ok (dm_of u x) -> moves_in N (sizes x) -> serves m inc (dm_of u x) N.
Proof.
  intros I C E (_ & M1 & M2). exists (sizes x). destruct C as (C1 & C2 & _). split; [split; assumption|]. split; [exact E|]. split; [exact M1|]. split; [exact M2|].
  intros L. exists x. split; assumption.
Qed.
Hypothesis HK : forall x, In x (kinds_of planes) -> prepare_decoder_tables m (sizes x) = Ok (dm_of u x) /\ code_lengths (sizes x).
Hypothesis HR : robust planes sizes.
Hypothesis HU : sound u.

Lemma kinds_in p : In p planes -> In (pl_end p) (kinds_of planes) /\ In (pl_sel p) (kinds_of planes).
Proof. intros I. unfold kinds_of. split; right; apply in_or_app; [left|right]; apply in_map; exact I. Qed.
Lemma chunks_serve : serves m inc (u_first_dm u) 8191.
Proof.
  assert (In Chunks (kinds_of planes)) as I by (left; reflexivity). destruct (HK Chunks I) as [E C].
  apply (serves_intro Chunks 8191 I C E). split; [lia|]. split; [exact (proj1 HR)|]. intros s (S1 & _). destruct C as (C & _). lia.
Qed.
Lemma color_is_safe : In (color_plane (u_color_endpoints u) (u_color_selectors u)) planes -> color_safe m u inc.
Proof.
  intros I. destruct (kinds_in _ I) as [I1 I2]. destruct (proj2 HR _ I) as [M1 M2]. cbn [color_plane pl_end pl_sel pl_ends pl_sels] in *.
  destruct (HK _ I1) as [E1 C1]. destruct (HK _ I2) as [E2 C2].
  split; [apply color_from_sensible; [exact HU|destruct M1; lia|destruct M2; lia]|]. split; [exact chunks_serve|].
  split; [exact (serves_intro ColorEnd _ I1 C1 E1 M1)|exact (serves_intro ColorSel _ I2 C2 E2 M2)].
Qed.
Lemma alpha_is_safe : In (alpha_plane (u_alpha_endpoints u) (u_alpha_selectors u)) planes -> alpha_safe m u inc.
Proof.
  intros I. destruct (kinds_in _ I) as [I1 I2]. destruct (proj2 HR _ I) as [M1 M2]. cbn [alpha_plane pl_end pl_sel pl_ends pl_sels] in *.
  destruct (HK _ I1) as [E1 C1]. destruct (HK _ I2) as [E2 C2].
  assert (alpha_ready u) as AR by (apply alpha_from_sensible; [exact HU|destruct M1; lia|destruct M2; lia]).
  split; [exact AR|]. split; [exact chunks_serve|]. split; [exact (serves_intro AlphaEnd _ I1 C1 E1 M1)|].
  destruct AR as (_ & _ & _ & L & _). rewrite L, Z.mul_comm, Z.div_mul in M2 by lia. exact (serves_intro AlphaSel _ I2 C2 E2 M2).
Qed.

Lemma level_2_safe src size : usable m (u_selector_dm1 u) -> u_header u = header_at d -> bytes d -> 0 <= level -> 1 <= faces -> faces = 1 \/ H mod 2 = 0 ->
  level_end m f W H faces < 2 ^ 31 -> planes <> [] -> bytes src -> 1 <= size <= zlen src ->
  safe inc (lost_in f) (fun out => exists P, all_fit planes P W H faces /\ out = chunk_picture planes P W H faces)
    (unpack_level_2 m u src size (W * block_size_of f * H) (W * block_size_of f) level).
Proof.
  intros Us Eh Hb Hl HF HS HZ Hp Hsrc Hsize.
  assert (forall A (Q : A -> Prop) r, calm inc (fun _ => True) r /\ errs (eq (lost_in f)) r -> (forall a, r = Ok a -> Q a) -> safe inc (lost_in f) Q r) as G
    by (intros A Q r [G1 G2] G3; apply safe_intro; assumption).
  apply G; [|intros out; exact (level_2_inv m d u level src size out HU Us Eh Hb Hl HF HS HZ)]. clear G.
  pose proof (number_range d 12 2 Hb ltac:(lia)) as Nw; pose proof (number_range d 14 2 Hb ltac:(lia)) as Nh.
  destruct (level_cols_eq (number d 12 2) level ltac:(lia) Hl) as [E1 HW]; destruct (level_cols_eq (number d 14 2) level ltac:(lia) Hl) as [E2 HH].
  pose proof (level_cols_le (number d 12 2) level ltac:(lia) Hl) as HW2; pose proof (level_cols_le (number d 14 2) level ltac:(lia) Hl) as HH2.
  fold W in E1, HW, HW2; fold H in E2, HH, HH2; pose proof (number_range d 17 1 Hb ltac:(lia)) as [_ Nf]; change (256 ^ 1) with 256 in Nf; fold faces in Nf.
  unfold unpack_level_2; rewrite Eh; cbn [h_width h_height h_format h_faces header_at]; rewrite E1, E2; fold f faces.
  change FmtDxt1 with 0; change FmtDxt5a with 9; change FmtDxt5 with 2; change FmtDxt5CcxY with 3; change FmtDxt5XGxR with 4; change FmtDxt5XGbr with 5; change FmtDxt5Agbr with 6; change FmtDxnXy with 7; change FmtDxnYx with 8.
  fold (block_size_of f); set (B := block_size_of f) in *.
  assert (B = 8 \/ B = 16) as HB by (unfold B, block_size_of; destruct ((f =? 0) || (f =? 9)); auto).
  assert ((W * B =? 0) = false) as -> by (apply Z.eqb_neq; nia).
  assert ((W * B <? B * W) = false) as -> by (apply Z.ltb_ge; lia).
  assert (Z.land (W * B) 3 = 0) as -> by (change 3 with (Z.ones 2); rewrite Z.land_ones by lia; change (2 ^ 2) with 4; destruct HB as [->| ->]; dlia).
  cbn [orb negb Z.eqb bind].
  destruct (level_room m f W H faces ltac:(split; [exact HW|exact HW2]) ltac:(split; [exact HH|exact HH2]) ltac:(split; [exact HF|exact Nf]) HZ) as (RP & RM & RL & RK & RF & RZ & Ht).
  fold B in RP, RM, RL, RK, RF, RZ, Ht.
  rewrite ua_ok by lia; cbn [bind]; rewrite Z.ltb_irrefl.
  destruct (start_steady src size Hsrc Hsize) as (c & -> & Sc); cbn [or_err bind].
  rewrite (shr_div (W + 1) 1), (shr_div (H + 1) 1) by lia; change (2 ^ 1) with 2.
  change ((W + 1) / 2) with (chunk_cols W); change ((H + 1) / 2) with (chunk_rows H).
  set (ret := repeat 0 (Z.to_nat (W * B * H * faces))).
  assert (zlen ret = faces * H * W * B) as Lr by (unfold ret; unfold zlen; rewrite repeat_length, Z2Nat.id by nia; ring).
  assert (h_faces (u_header u) = faces) as Ef by (rewrite Eh; reflexivity).
  destruct (planes_split _ _ _ _ _ Hp) as [E|[E|[E|[E|E]]]].
  - assert (B = 8) as EB by (unfold B, block_size_of; rewrite E; reflexivity). rewrite EB in *. rewrite E. cbn [Z.eqb].
    split; [|apply er_dxt1]. apply dxt1_calm with (faces := faces); auto. apply color_is_safe. unfold planes. rewrite E. left; reflexivity.
  - assert (B = 16) as EB. { unfold B, block_size_of. destruct (Z.eqb_spec f 0); [lia|]. destruct (Z.eqb_spec f 9); [lia|reflexivity]. } rewrite EB in *.
    assert (planes = [alpha_plane (u_alpha_endpoints u) (u_alpha_selectors u); color_plane (u_color_endpoints u) (u_color_selectors u)]) as P.
    { unfold planes, planes_of. destruct (Z.eqb_spec f 0); [lia|]. destruct (Z.leb_spec 2 f); [|lia]. destruct (Z.leb_spec f 6); [|lia]. reflexivity. }
    assert (lost_in f = "Failed to decord DXT5 Texture"%string) as EL.
    { unfold lost_in. destruct (Z.eqb_spec f 0); [lia|]. destruct (Z.eqb_spec f 9); [lia|]. destruct (Z.eqb_spec f 7); [lia|]. destruct (Z.eqb_spec f 8); [lia|reflexivity]. }
    destruct (Z.eqb_spec f 0); [lia|].
    assert ((f =? 2) || (f =? 3) || (f =? 5) || (f =? 6) || (f =? 4) = true) as ->.
    { destruct (Z.eqb_spec f 2), (Z.eqb_spec f 3), (Z.eqb_spec f 4), (Z.eqb_spec f 5), (Z.eqb_spec f 6); try reflexivity; lia. }
    specialize (RK ltac:(lia)). split; [|rewrite EL; apply er_dxt5]. apply dxt5_calm with (faces := faces); auto.
    + apply alpha_is_safe. rewrite P. left; reflexivity.
    + apply color_is_safe. rewrite P. right; left; reflexivity.
  - assert (B = 16) as EB by (unfold B, block_size_of; rewrite E; reflexivity). rewrite EB in *.
    rewrite E. cbn [Z.eqb Pos.eqb orb]. specialize (RK ltac:(lia)). split; [|apply er_dxn]. apply dxn_calm with (faces := faces); auto. apply alpha_is_safe. unfold planes. rewrite E. left; reflexivity.
  - assert (B = 16) as EB by (unfold B, block_size_of; rewrite E; reflexivity). rewrite EB in *.
    rewrite E. cbn [Z.eqb Pos.eqb orb]. specialize (RK ltac:(lia)). split; [|apply er_dxn]. apply dxn_calm with (faces := faces); auto. apply alpha_is_safe. unfold planes. rewrite E. left; reflexivity.
  - assert (B = 8) as EB by (unfold B, block_size_of; rewrite E; reflexivity). rewrite EB in *.
    rewrite E. cbn [Z.eqb Pos.eqb orb]. specialize (RK ltac:(lia)). split; [|apply er_dxt5a]. apply dxt5a_calm with (faces := faces); auto. apply alpha_is_safe. unfold planes. rewrite E. left; reflexivity.
Qed.

Lemma level_safe : bytes d -> crnd_unpack_begin m d (zlen d) = Ok u -> 0 <= level < 16 -> level < levels_of d ->
  level_start d level < level_stop d level -> level_stop d level <= zlen d ->
  1 <= faces -> faces = 1 \/ H mod 2 = 0 -> level_end m f W H faces < 2 ^ 31 -> planes <> [] ->
  safe inc (lost_in f) (fun r => fst r = f /\ exists P, all_fit planes P W H faces /\ snd r = chunk_picture planes P W H faces)
    (crunch_unpack_level m d (zlen d) level).
Proof.
  intros Hb E Hl HL H1 H2 HF HS HZ Hp.
  assert (unpacker_init m d (zlen d) = Ok u) as Eu.
  { unfold crnd_unpack_begin in E. destruct (zlen d <? CRNHEADER_MIN_SIZE); [discriminate|]. destruct (unpacker_init m d (zlen d)); [exact E|discriminate|discriminate]. }
  destruct (init_sound m d u Hb Eu) as (U1 & U2 & U3 & U4 & U5 & U6 & U7). destruct (init_palettes m d u Hb Eu) as [_ Us].
  pose proof (number_range d (70 + 4 * level) 4 Hb ltac:(lia)) as N0. fold (level_start d level) in N0.
  unfold crunch_unpack_level. rewrite (info_code d Hb). destruct (Z.ltb_spec (zlen d) 74); [lia|]. destruct (Z.ltb_spec (zlen d) (header_room d)); [lia|].
  rewrite U6. cbn [andb]. pose proof (planes_split _ _ _ _ _ Hp) as Pf.
  assert (znth d 18 = f) as E18. { unfold f, number. change (zrange 0 1) with [0]. cbn [fold_right]. change (18 + 0) with 18. change (256 ^ (1 - 1 - 0)) with 1. lia. }
  rewrite E18. destruct (Z.leb_spec f 15); [|lia]. cbn [or_err bind]. rewrite E. cbn [bind i_width i_height i_format info_at].
  pose proof (number_range d 12 2 Hb ltac:(lia)) as Nw. pose proof (number_range d 14 2 Hb ltac:(lia)) as Nh.
  destruct (level_cols_eq (number d 12 2) level ltac:(lia) ltac:(lia)) as [E1 HW]. destruct (level_cols_eq (number d 14 2) level ltac:(lia) ltac:(lia)) as [E2 HH].
  rewrite (Z.max_comm 1 (Z.shiftr (number d 12 2) level)), (Z.max_comm 1 (Z.shiftr (number d 14 2) level)), E1, E2. fold W in HW |- *. fold H in HH |- *.
  rewrite !(Z.max_r 1) by lia. fold f.
  assert (crn_bytes_per_dxt_block f = Ok (block_size_of f)) as ->.
  { destruct Pf as [->|[Pf|[->|[->| ->]]]]; try reflexivity.
    assert (f = 2 \/ f = 3 \/ f = 4 \/ f = 5 \/ f = 6) as [->|[->|[->|[->| ->]]]] by lia; reflexivity. }
  cbn [bind]. pose proof (level_2_safe (skipn (Z.to_nat (level_start d level)) d) (level_stop d level - level_start d level) Us U3 Hb ltac:(lia) HF HS HZ Hp) as L2.
  set (B := block_size_of f) in *.
  assert (B = 8 \/ B = 16) as HB by (unfold B, block_size_of; destruct ((f =? 0) || (f =? 9)); auto).
  pose proof (level_cols_le (number d 12 2) level ltac:(lia) ltac:(lia)) as HW2. pose proof (level_cols_le (number d 14 2) level ltac:(lia) ltac:(lia)) as HH2.
  fold W in HW2. fold H in HH2. pose proof (number_range d 17 1 Hb ltac:(lia)) as [_ Nf]. change (256 ^ 1) with 256 in Nf. fold faces in Nf.
  destruct (level_room m f W H faces ltac:(split; [exact HW|exact HW2]) ltac:(split; [exact HH|exact HH2]) ltac:(split; [exact HF|exact Nf]) HZ) as (RP & _ & _ & _ & _ & _ & Ht).
  fold B in RP, Ht.
  rewrite (ua_ok m 32 (W * B)) by lia. cbn [bind]. rewrite ua_ok by lia. cbn [bind].
  unfold crnd_unpack_level. change CRNMAX_LEVELS with 16.
  destruct (Z.ltb_spec (W * B * H) 8); [nia|]. destruct (Z.leb_spec 16 level); [lia|]. cbn [orb].
  rewrite (level_source_ok u d level U1 U2 U3) by lia. cbn [bind].
  specialize (L2 ltac:(apply bytes_skipn, Hb) ltac:(rewrite zlen_skipn by lia; lia)).
  destruct (unpack_level_2 m u _ _ _ _ _) as [out|e|]; cbn [safe bind fst snd] in *; [split; [reflexivity|exact L2]|exact L2|exact L2].
Qed.
End Level.

Lemma plane_in f ce cs ae al p : In p (planes_of f ce cs ae al) -> p = color_plane ce cs \/ p = alpha_plane ae al.
Proof. unfold planes_of. repeat match goal with |- context [if ?b then _ else _] => destruct b end; cbn [In]; intuition. Qed.

Lemma crunch_safe m data k level : let planes := file_planes data k in let f := number data 18 1 in
  let W := level_cols (number data 12 2) level in let H := level_cols (number data 14 2) level in let faces := number data 17 1 in
  written data k -> 0 <= level < 16 -> level < levels_of data ->
  level_start data level < level_stop data level -> level_stop data level <= zlen data ->
  1 <= faces -> faces = 1 \/ H mod 2 = 0 -> level_end m f W H faces < 2 ^ 31 ->
  planes <> [] -> robust planes (k_sizes k) ->
  safe (exists x, In x (kinds_of planes) /\ incomplete (k_sizes k x)) (lost_in f)
    (fun r => fst r = f /\ exists P, all_fit planes P W H faces /\ snd r = chunk_picture planes P W H faces) (crunch_unpack_level m data (zlen data) level).
Proof.
  intros planes f W H faces HWr Hl HL H1 H2 HF HS HZ Hp HR.
  destruct (init_exact m data k HWr) as (u & Eu & Eh & Ep & Ec & Ea & HK). pose proof HWr as (Hb & _).
  unfold planes in *. rewrite Ep in *.
  assert (unpacker_init m data (zlen data) = Ok u) as Ei.
  { unfold crnd_unpack_begin in Eu. destruct (zlen data <? CRNHEADER_MIN_SIZE); [discriminate|]. destruct (unpacker_init m data (zlen data)); [exact Eu|discriminate|discriminate]. }
  destruct (init_sound m data u Hb Ei) as (_ & _ & _ & _ & _ & _ & U7).
  apply level_safe; auto. intros x Hx. apply HK.
  assert (forall p, In p (planes_of (number data 18 1) (u_color_endpoints u) (u_color_selectors u) (u_alpha_endpoints u) (u_alpha_selectors u)) ->
    kind_used data (pl_end p) /\ kind_used data (pl_sel p)) as G.
  { intros p I. destruct (proj2 HR p I) as [[M _] _]. destruct (plane_in _ _ _ _ _ _ I) as [-> | ->]; cbn [color_plane alpha_plane pl_ends pl_end pl_sel kind_used] in *.
    - assert (has_color data) by (unfold has_color; intros Z0; rewrite Ec, Z0 in M; change (zlen (color_ends (k_color_ends k) 0)) with 0 in M; lia). auto.
    - assert (has_alpha data) by (unfold has_alpha; intros Z0; rewrite Ea, Z0 in M; change (zlen (alpha_ends (k_alpha_ends k) 0)) with 0 in M; lia). auto. }
  destruct Hx as [<-|Hx]; [exact Logic.I|]. apply in_app_or in Hx. rewrite !in_map_iff in Hx. destruct Hx as [(p & <- & I)|(p & <- & I)]; apply G, I.
Qed.

(** ** Files that differ in the levels only *)
Section Same.
Context (n : Z) (d d' : list Z).
Hypothesis HB : same_below n d d'.
Lemma number_same o k : 0 <= o -> o + k <= n -> number d' o k = number d o k.
Proof.
  intros Ho Hk. unfold number. assert (forall l, (forall i, In i l -> 0 <= i < k) ->
    fold_right (fun j a => znth d' (o + j) * 256 ^ (k - 1 - j) + a) 0 l = fold_right (fun j a => znth d (o + j) * 256 ^ (k - 1 - j) + a) 0 l) as G.
  { induction l as [|x l IH]; intros Hl; [reflexivity|]. cbn [fold_right]. rewrite IH by (intros i I; apply Hl; right; exact I).
    specialize (Hl x (or_introl eq_refl)). rewrite (proj2 HB (o + x)) by lia. reflexivity. }
  apply G. intros i I. apply in_zrange in I. lia.
Qed.
Lemma palette_same o : 0 <= o -> o + 8 <= n -> palette_at d' o = palette_at d o.
Proof. intros Ho Hk. unfold palette_at. rewrite !number_same by lia. reflexivity. Qed.
Lemma levels_same : 17 <= n -> levels_of d' = levels_of d.
Proof. intros Hn. unfold levels_of. apply (proj2 HB). lia. Qed.
Lemma header_same : 0 <= levels_of d -> header_room d <= n -> header_at d' = header_at d.
Proof.
  unfold header_room. intros Hl Hn. unfold header_at. rewrite levels_same by lia. rewrite !number_same by lia. rewrite !palette_same by lia.
  f_equal. apply map_ext_in. intros i I. apply in_zrange in I. apply number_same; lia.
Qed.
Lemma section_same o s : 0 <= o -> 0 <= s -> o + s <= n -> o + s <= zlen d -> section d' o s = section d o s.
Proof.
  intros Ho Hs Hn Hl. unfold section. destruct HB as [L E].
  apply nth_ext with (d := 0) (d' := 0).
  - unfold zlen in *. rewrite !firstn_length, !skipn_length. lia.
  - unfold zlen in *. rewrite firstn_length, skipn_length. intros i Hi.
    rewrite !nth_firstn_lt by lia. specialize (E (o + Z.of_nat i) ltac:(lia)).
    pose proof (znth_skipn d (Z.to_nat o) (Z.of_nat i) ltac:(lia)) as Q1. pose proof (znth_skipn d' (Z.to_nat o) (Z.of_nat i) ltac:(lia)) as Q2.
    rewrite Z2Nat.id in Q1, Q2 by lia. unfold znth at 1 in Q1. unfold znth at 1 in Q2. rewrite Nat2Z.id in Q1, Q2. congruence.
Qed.
End Same.

Lemma holds_same n d d' o s items : same_below n d d' -> o + s <= n -> holds d o s items -> holds d' o s items.
Proof.
  intros HB Hn (H1 & H2 & H3 & H4 & rest & H5 & H6). pose proof HB as [L _]. unfold holds. rewrite L. split; [exact H1|]. split; [exact H2|]. split; [exact H3|]. split; [exact H4|].
  exists rest. rewrite (section_same n d d' HB) by lia. split; assumption.
Qed.

Lemma written_same n d d' k : written d k -> bytes d' -> same_below n d d' -> stored_below n d ->
  written d' k /\ header_at d' = header_at d /\ levels_of d' = levels_of d.
Proof.
  intros (Hb & L1 & L2 & WF & Any & (i & ie & is_ & je & js & T1 & T2 & T3 & T4 & T5 & T6) & HC & HA) Hb' HB (S1 & S2 & S3 & S4).
  assert (0 <= levels_of d) as HL.
  { unfold levels_of. pose proof (bytes_znth d 16 Hb). lia. }
  pose proof S1 as S1'. unfold header_room in S1'. assert (70 <= n) as Hn by lia. pose proof HB as [L E].
  pose proof (header_same n d d' HB HL S1) as EH. pose proof (levels_same n d d' HB ltac:(lia)) as EL.
  split; [|split; [exact EH|exact EL]].
  unfold written, tables_written, color_written, alpha_written, palette_holds, header_room in *. unfold has_color, has_alpha in *. cbv zeta in *. rewrite L, EH, EL.
  split; [exact Hb'|]. split; [exact L1|]. split; [exact L2|].
  split. { unfold well_formed. rewrite L, (E 0), (E 1), !(number_same n d d' HB) by lia. exact WF. }
  split; [exact Any|].
  split. { exists i, ie, is_, je, js. repeat (split; [assumption|]). apply (holds_same n d d' _ _ _ HB S2 T6). }
  split.
  - intros C. destruct (HC C) as [(s5 & s6 & i5 & i6 & A1 & A2 & A3) (s & j & B1 & B2 & B3)]. destruct (S3 C) as [P1 P2].
    split; [exists s5, s6, i5, i6|exists s, j]; (split; [assumption|]; split; [assumption|]); [apply (holds_same n d d' _ _ _ HB P1 A3)|apply (holds_same n d d' _ _ _ HB P2 B3)].
  - intros C. destruct (HA C) as [(s8 & i8 & A1 & A3) (s & j & B1 & B2 & B3)]. destruct (S4 C) as [P1 P2].
    split; [exists s8, i8|exists s, j]; (split; [assumption|]); [|split; [assumption|]]; [apply (holds_same n d d' _ _ _ HB P1 A3)|apply (holds_same n d d' _ _ _ HB P2 B3)].
Qed.
