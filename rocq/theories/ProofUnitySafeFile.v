(** * Proofs about Unity crunch files whose levels hold arbitrary data. *)
From Verif Require Import Base BaseLemmas ModelCrn ModelCrunch ModelUnity SpecCrn SpecCrnHeader SpecCrnFile SpecCrnLevel SpecCrnSound SpecHuff SpecCrnErr SpecCrnSafe SpecUnity SpecUnityFile SpecUnitySound SpecUnitySafe
  ProofCrnHeader ProofHuff ProofCrnIndex ProofCrnGrid ProofCrnLevel ProofLoops ProofCrnFile ProofCrnDecode ProofUnityFile ProofUnityLevel ProofUnitySound ProofUnitySoundFile ProofUnityWhole
  ProofHuffAll ProofCrnErr ProofCrnSafe ProofCrnSafeFile ProofUnitySafe ProofCrnWhole.

Section Level.
Context (m : build) (d : list Z) (u : unpacker) (level : Z) (sizes : kind -> list Z).
Let f := number d 18 1.
Let faces := number d 17 1.
Let W := level_cols (number d 12 2) level.
Let H := level_cols (number d 14 2) level.
Let inc := exists x, In x (u_kinds f) /\ incomplete (sizes x).
Hypothesis Hb : bytes d.
Hypothesis HK : forall x, In x (u_kinds f) -> prepare_decoder_tables m (sizes x) = Ok (dm_of u x) /\ code_lengths (sizes x).
Hypothesis HR : u_robust d sizes.
Hypothesis SZ : u_palette_sizes d (u_color_endpoints u) (u_color_selectors u) (u_alpha_endpoints u) (u_alpha_selectors u).
Hypothesis H5 : has_halves f = true -> Forall five_bits (u_color_endpoints u).
Hypothesis VE : words (u_alpha_endpoints u).
Hypothesis VA : words (u_alpha_selectors u).

Lemma u_serves_intro x N : In x (u_kinds f) -> (exists s, coded (sizes x) s) -> (forall s, coded (sizes x) s -> s <= N) -> serves m inc (dm_of u x) N.
Proof.
  intros I M1 M2. destruct (HK x I) as [E C]. exists (sizes x). destruct C as (C1 & C2 & _). split; [split; assumption|]. split; [exact E|]. split; [exact M1|]. split; [exact M2|].
  intros L. exists x. split; assumption.
Qed.
Lemma color_kinds x : u_draws_color f = true -> In x [ColorEnd; ColorSel] -> In x (u_kinds f).
Proof. intros D I. unfold u_kinds. rewrite D. right. apply in_or_app. left. exact I. Qed.
Lemma alpha_kinds x : u_draws_alpha f = true -> In x [AlphaEnd; AlphaSel] -> In x (u_kinds f).
Proof. intros D I. unfold u_kinds. rewrite D. right. apply in_or_app. right. exact I. Qed.

Lemma u_chunks_serve : u_first_safe m u inc.
Proof.
  assert (In Chunks (u_kinds f)) as I by (left; reflexivity). destruct (HK Chunks I) as [_ C].
  apply (u_serves_intro Chunks 8191 I (proj1 HR)). intros s (S1 & _). destruct C as (C & _). lia.
Qed.
Lemma u_color_moves : u_draws_color f = true -> u_color_ready u /\ serves m inc (u_endpoint_dm0 u) (zlen (u_color_endpoints u)) /\ serves m inc (u_selector_dm0 u) (number d 47 2 - 1) /\
  zlen (u_color_selectors u) = (if has_halves f then 2 else 1) * number d 47 2.
Proof.
  intros D. destruct SZ as (S1 & S2 & _). destruct (proj1 (proj2 HR) D) as [(M0 & M1 & M2) [P1 P2]].
  pose proof (number_range d 39 2 Hb ltac:(lia)) as N1. pose proof (number_range d 47 2 Hb ltac:(lia)) as N2. change (256 ^ 2) with 65536 in *.
  destruct (Z.eqb_spec (number d 39 2) 0) in S2; [lia|]. fold f in S2.
  split; [unfold u_color_ready; lia|].
  split; [rewrite S1; apply (u_serves_intro ColorEnd); [apply color_kinds; [exact D|left; reflexivity]|exact M1|exact M2]|].
  split; [apply (u_serves_intro ColorSel); [apply color_kinds; [exact D|right; left; reflexivity]|exact P1|intros s C; specialize (P2 s C); lia]|exact S2].
Qed.
Lemma u_alpha_moves : u_draws_alpha f = true -> u_alpha_ready u /\ serves m inc (u_endpoint_dm1 u) (zlen (u_alpha_endpoints u)) /\ serves m inc (u_selector_dm1 u) (number d 63 2 - 1) /\
  zlen (u_alpha_selectors u) = (if f =? 12 then 6 * number d 63 2 + 1 else if f =? 14 then 3 * number d 63 2 + 1 else 3 * number d 63 2).
Proof.
  intros D. destruct SZ as (_ & _ & S1 & S2). destruct (proj2 (proj2 HR) D) as [(M0 & M1 & M2) [P1 P2]].
  pose proof (number_range d 55 2 Hb ltac:(lia)) as N1. pose proof (number_range d 63 2 Hb ltac:(lia)) as N2. change (256 ^ 2) with 65536 in *.
  destruct (Z.eqb_spec (number d 55 2) 0) in S2; [lia|]. fold f in S2.
  split; [unfold u_alpha_ready; split; [lia|]; split; [exact VE|exact VA]|].
  split; [rewrite S1; apply (u_serves_intro AlphaEnd); [apply alpha_kinds; [exact D|left; reflexivity]|exact M1|exact M2]|].
  split; [apply (u_serves_intro AlphaSel); [apply alpha_kinds; [exact D|right; left; reflexivity]|exact P1|intros s C; specialize (P2 s C); lia]|exact S2].
Qed.

Lemma u_color_is_safe : u_draws_color f = true -> has_halves f = false -> u_color_safe m u inc.
Proof.
  intros D Hh. destruct (u_color_moves D) as (R & S1 & S2 & L). rewrite Hh in L. split; [exact R|]. split; [exact S1|].
  rewrite L, Z.mul_1_l. exact S2.
Qed.
Lemma u_halves_are_safe : has_halves f = true -> u_halves_safe m u inc.
Proof.
  intros Hh. assert (u_draws_color f = true) as D. { unfold u_draws_color, is_etc. unfold has_halves in Hh. lia. }
  destruct (u_color_moves D) as (R & S1 & S2 & L). rewrite Hh in L. split; [exact R|]. split; [exact (H5 Hh)|]. split; [exact S1|].
  rewrite L, Z.mul_comm, Z.div_mul by lia. exact S2.
Qed.
Lemma u_alpha_is_safe : u_draws_alpha f = true -> f <> 12 -> u_alpha_safe m u inc.
Proof.
  intros D Hf. destruct (u_alpha_moves D) as (R & S1 & S2 & L). split; [exact R|]. split; [exact S1|].
  destruct (Z.eqb_spec f 12); [contradiction|]. assert (zlen (u_alpha_selectors u) / 3 = number d 63 2) as ->; [|exact S2].
  destruct (f =? 14); rewrite L; dlia.
Qed.
Lemma u_halpha_is_safe : f = 12 -> u_halpha_safe m u inc.
Proof.
  intros Hf. assert (u_draws_alpha f = true) as D by (rewrite Hf; reflexivity).
  destruct (u_alpha_moves D) as (R & S1 & S2 & L). rewrite Hf in L. cbn [Z.eqb Pos.eqb] in L. split; [exact R|]. split; [exact S1|].
  assert (zlen (u_alpha_selectors u) / 6 = number d 63 2) as ->; [rewrite L; dlia|exact S2].
Qed.

Lemma u_level_2_safe src size : u_header u = header_at d -> 0 <= level -> 1 <= faces -> faces = 1 \/ H mod 2 = 0 -> m = Wrapping \/ W mod 2 = 0 ->
  W * u_block_size f * H < 2 ^ 32 -> u_draws_color f || u_draws_alpha f = true -> bytes src -> 1 <= size <= zlen src ->
  safe inc (u_lost_in f) (fun out => exists block, (forall q, 0 <= q < faces * H * W -> u_drawable f (u_color_endpoints u) (u_color_selectors u) (u_alpha_endpoints u) (u_alpha_selectors u) (block q)) /\
    out = flat_map block (zrange 0 (faces * H * W)))
    (unity_unpack_level_2 m u src size (W * u_block_size f * H) (W * u_block_size f) level).
Proof.
  intros Eh Hl HF HS HM HZ Hd Hsrc Hsize.
  assert (forall A (Q : A -> Prop) r, calm inc (fun _ => True) r /\ errs (eq (u_lost_in f)) r -> (forall a, r = Ok a -> Q a) -> safe inc (u_lost_in f) Q r) as G
    by (intros A Q r [G1 G2] G3; apply safe_intro; assumption).
  apply G; [|intros out; exact (unity_level_2_inv m d u level src size out SZ H5 VE VA Eh Hb Hl HF HS HM HZ)]. clear G.
  pose proof (number_range d 12 2 Hb ltac:(lia)) as Nw. pose proof (number_range d 14 2 Hb ltac:(lia)) as Nh.
  destruct (level_cols_eq (number d 12 2) level ltac:(lia) Hl) as [E1 HW]. destruct (level_cols_eq (number d 14 2) level ltac:(lia) Hl) as [E2 HH].
  pose proof (level_cols_le (number d 12 2) level ltac:(lia) Hl) as HW2. pose proof (level_cols_le (number d 14 2) level ltac:(lia) Hl) as HH2.
  fold W in E1, HW, HW2. fold H in E2, HH, HH2. pose proof (number_range d 17 1 Hb ltac:(lia)) as [_ Nf]. change (256 ^ 1) with 256 in Nf. fold faces in Nf.
  unfold unity_unpack_level_2. rewrite Eh. cbn [h_width h_height h_format h_faces header_at]. rewrite E1, E2. fold f faces.
  change FmtDxt1 with 0. change FmtDxt5a with 9. change FmtDxt5 with 2. change FmtDxt5CcxY with 3. change FmtDxt5XGxR with 4. change FmtDxt5XGbr with 5. change FmtDxt5Agbr with 6. change FmtDxnXy with 7. change FmtDxnYx with 8.
  change FmtEtc1 with 10. change FmtEtc2 with 11. change FmtEtc2a with 12. change FmtEtc1s with 13. change FmtEtc2as with 14.
  fold (u_block_size f). set (B := u_block_size f) in *.
  assert (B = 8 \/ B = 16) as HB by (unfold B, u_block_size; match goal with |- context [if ?b then _ else _] => destruct b end; auto).
  assert ((W * B =? 0) = false) as -> by (apply Z.eqb_neq; nia).
  assert ((W * B <? B * W) = false) as -> by (apply Z.ltb_ge; lia).
  assert (Z.land (W * B) 3 = 0) as ->. { change 3 with (Z.ones 2). rewrite Z.land_ones by lia. change (2 ^ 2) with 4. destruct HB as [->| ->]; dlia. }
  cbn [orb negb Z.eqb bind].
  assert (0 <= W * B * H) as HN by (destruct HB as [->| ->]; nia).
  rewrite ua_ok by lia. cbn [bind]. rewrite Z.ltb_irrefl.
  destruct (start_steady src size Hsrc Hsize) as (c & -> & Sc). cbn [or_err bind].
  set (ret := repeat 0 (Z.to_nat (W * B * H * faces))).
  assert (zlen ret = faces * H * W * B) as Lr. { unfold ret. unfold zlen. rewrite repeat_length, Z2Nat.id by nia. ring. }
  assert (h_faces (u_header u) = faces) as Ef by (rewrite Eh; reflexivity).
  assert ((faces * H + 2) * (W + 2) * (4 * 4) <= 2 ^ 48) as Room.
  { assert (faces * H <= 256 * 2 ^ 14) by (apply Z.mul_le_mono_nonneg; lia).
    assert ((faces * H + 2) * (W + 2) <= (256 * 2 ^ 14 + 2) * (2 ^ 14 + 2)) by (apply Z.mul_le_mono_nonneg; lia). lia. }
  clear HN HZ Nw Nh E1 E2 Hl. clearbody ret. pose proof u_chunks_serve as SF.
  destruct ((f =? 0) || (f =? 13)) eqn:F1.
  { assert (f = 0 \/ f = 13) as F by lia. assert (B = 8) as EB by (unfold B; destruct F as [->| ->]; reflexivity). rewrite EB in *.
    assert (u_lost_in f = "Failed to decode DXT1 Texture."%string) as -> by (destruct F as [->| ->]; reflexivity).
    split; [|apply er_u_dxt1]. apply u_dxt1_calm with (faces := faces); auto. apply u_color_is_safe; destruct F as [->| ->]; reflexivity. }
  destruct ((f =? 2) || (f =? 3) || (f =? 5) || (f =? 6) || (f =? 4) || (f =? 14)) eqn:F2.
  { assert (f = 2 \/ f = 3 \/ f = 4 \/ f = 5 \/ f = 6 \/ f = 14) as F by lia.
    assert (B = 16) as EB by (unfold B; destruct F as [->|[->|[->|[->|[->| ->]]]]]; reflexivity). rewrite EB in *.
    assert (u_lost_in f = "Failed to decode DXT5 Texture."%string) as -> by (destruct F as [->|[->|[->|[->|[->| ->]]]]]; reflexivity).
    split; [|apply er_u_dxt5]. apply u_dxt5_calm with (faces := faces); auto.
    - apply u_color_is_safe; destruct F as [->|[->|[->|[->|[->| ->]]]]]; reflexivity.
    - apply u_alpha_is_safe; [destruct F as [->|[->|[->|[->|[->| ->]]]]]; reflexivity|lia]. }
  destruct (f =? 9) eqn:F3.
  { assert (f = 9) as F by lia. assert (B = 8) as EB by (unfold B; rewrite F; reflexivity). rewrite EB in *.
    assert (u_lost_in f = "Failed to decode DXT5A Texture."%string) as -> by (rewrite F; reflexivity).
    split; [|apply er_u_dxt5a]. apply u_dxt5a_calm with (faces := faces); auto. apply u_alpha_is_safe; [rewrite F; reflexivity|lia]. }
  destruct ((f =? 7) || (f =? 8)) eqn:F4.
  { assert (f = 7 \/ f = 8) as F by lia. assert (B = 16) as EB by (unfold B; destruct F as [->| ->]; reflexivity). rewrite EB in *.
    assert (u_lost_in f = "Failed to decode DXN Texture."%string) as -> by (destruct F as [->| ->]; reflexivity).
    split; [|apply er_u_dxn]. apply u_dxn_calm with (faces := faces); auto. apply u_alpha_is_safe; [destruct F as [->| ->]; reflexivity|lia]. }
  destruct ((f =? 10) || (f =? 11)) eqn:F5.
  { assert (f = 10 \/ f = 11) as F by lia. assert (B = 8) as EB by (unfold B; destruct F as [->| ->]; reflexivity). rewrite EB in *.
    assert (u_lost_in f = "Failed to decode ETC1 Texture."%string) as -> by (destruct F as [->| ->]; reflexivity).
    split; [|apply er_u_etc1]. apply u_etc1_calm with (faces := faces); auto. apply u_halves_are_safe. destruct F as [->| ->]; reflexivity. }
  assert (f = 12) as F.
  { unfold u_draws_color, u_draws_alpha, is_etc in Hd. lia. }
  rewrite (proj2 (Z.eqb_eq f 12) F).
  assert (B = 16) as EB by (unfold B; rewrite F; reflexivity). rewrite EB in *.
  assert (u_lost_in f = "Failed to decode ETC2 Texture."%string) as -> by (rewrite F; reflexivity).
  split; [|apply er_u_etc2a]. apply u_etc2a_calm with (faces := faces); auto.
  - apply u_halves_are_safe. rewrite F. reflexivity.
  - apply u_halpha_is_safe, F.
Qed.
End Level.

Lemma unity_safe m d k level : let f := number d 18 1 in
  let W := level_cols (number d 12 2) level in let H := level_cols (number d 14 2) level in let faces := number d 17 1 in
  u_written d k -> 0 <= level < 16 -> level < levels_of d ->
  level_start d level < level_stop d level -> level_stop d level <= zlen d ->
  1 <= faces -> faces = 1 \/ H mod 2 = 0 -> m = Wrapping \/ W mod 2 = 0 -> W * H * u_block_size f < 2 ^ 32 ->
  u_draws_color f || u_draws_alpha f = true -> u_robust d (k_sizes k) ->
  safe (exists x, In x (u_kinds f) /\ incomplete (k_sizes k x)) (u_lost_in f)
    (fun r => fst r = f /\ exists block, (forall q, 0 <= q < faces * H * W -> u_drawable f (u_ce d k) (u_cs d k) (u_ae d k) (u_al d k) (block q)) /\ snd r = flat_map block (zrange 0 (faces * H * W)))
    (unity_crunch_unpack_level m d (zlen d) level).
Proof.
  intros f W H faces HWr Hl HL H1 H2 HF HS HM HZ Hd HR.
  destruct (unity_init_exact m d k HWr) as (u & Eu & U1 & U2 & Eh & Ece & Ecs & Eae & Eal & HK). pose proof HWr as (Hb & L74 & LR & WF & _).
  assert (unity_init m d (zlen d) = Ok u) as Ei.
  { unfold unity_unpack_begin in Eu. destruct (zlen d <? CRNHEADER_MIN_SIZE); [discriminate|]. destruct (unity_init m d (zlen d)); [exact Eu|discriminate|discriminate]. }
  destruct (u_init_palettes m d u Hb Ei) as (S & S5 & VE & VA).
  assert (forall x, In x (u_kinds f) -> kind_used d x) as KU.
  { intros x Hx. destruct HR as (_ & R1 & R2). fold f in R1, R2. unfold u_kinds in Hx. destruct Hx as [<-|Hx]; [exact Logic.I|]. apply in_app_or in Hx.
    assert (u_draws_color f = true -> has_color d) as HC by (intros D; destruct (proj1 (R1 D)) as [M _]; unfold has_color; intros Z0; change (number d 39 2 = 0) in Z0; lia).
    assert (u_draws_alpha f = true -> has_alpha d) as HA by (intros D; destruct (proj1 (R2 D)) as [M _]; unfold has_alpha; intros Z0; change (number d 55 2 = 0) in Z0; lia).
    destruct Hx as [Hx|Hx]; [destruct (u_draws_color f); [|contradiction]|destruct (u_draws_alpha f); [|contradiction]]; destruct Hx as [<-|[<-|[]]]; cbn [kind_used]; auto. }
  assert (forall x, In x (u_kinds f) -> prepare_decoder_tables m (k_sizes k x) = Ok (dm_of u x) /\ code_lengths (k_sizes k x)) as HK' by (intros x Hx; apply HK, KU, Hx).
  pose proof (number_range d (70 + 4 * level) 4 Hb ltac:(lia)) as N0. fold (level_start d level) in N0.
  assert (f = 0 \/ 2 <= f <= 14) as Pf by (unfold u_draws_color, u_draws_alpha, is_etc in Hd; lia).
  unfold unity_crunch_unpack_level. rewrite (info_code d Hb). destruct (Z.ltb_spec (zlen d) 74); [lia|]. destruct (Z.ltb_spec (zlen d) (header_room d)); [lia|].
  rewrite WF. cbn [andb].
  assert (znth d 18 = f) as E18. { unfold f, number. change (zrange 0 1) with [0]. cbn [fold_right]. change (18 + 0) with 18. change (256 ^ (1 - 1 - 0)) with 1. lia. }
  rewrite E18. destruct (Z.leb_spec f 15); [|lia]. cbn [or_err bind]. rewrite Eu. cbn [bind i_width i_height i_format info_at].
  pose proof (number_range d 12 2 Hb ltac:(lia)) as Nw. pose proof (number_range d 14 2 Hb ltac:(lia)) as Nh.
  destruct (level_cols_eq (number d 12 2) level ltac:(lia) ltac:(lia)) as [E1 HW]. destruct (level_cols_eq (number d 14 2) level ltac:(lia) ltac:(lia)) as [E2 HH].
  rewrite (Z.max_comm 1 (Z.shiftr (number d 12 2) level)), (Z.max_comm 1 (Z.shiftr (number d 14 2) level)), E1, E2. fold W in HW |- *. fold H in HH |- *.
  rewrite !(Z.max_r 1) by lia. fold f.
  assert (unity_bytes_per_dxt_block f = Ok (u_block_size f)) as ->.
  { assert (f = 0 \/ f = 2 \/ f = 3 \/ f = 4 \/ f = 5 \/ f = 6 \/ f = 7 \/ f = 8 \/ f = 9 \/ f = 10 \/ f = 11 \/ f = 12 \/ f = 13 \/ f = 14) as Q by lia.
    repeat (destruct Q as [->|Q]; [reflexivity|]). rewrite Q. reflexivity. }
  cbn [bind]. assert (u_block_size f = 8 \/ u_block_size f = 16) as HB by (unfold u_block_size; match goal with |- context [if ?b then _ else _] => destruct b end; auto).
  assert (W * u_block_size f * H < 2 ^ 32) as HT by (replace (W * u_block_size f * H) with (W * H * u_block_size f) by ring; exact HZ).
  pose proof (u_level_2_safe m d u level (k_sizes k) Hb HK' HR S S5 VE VA (skipn (Z.to_nat (level_start d level)) d) (level_stop d level - level_start d level) Eh ltac:(lia) HF HS HM HT Hd
    ltac:(apply bytes_skipn, Hb) ltac:(rewrite zlen_skipn by lia; lia)) as L2.
  fold f faces W H in L2. set (B := u_block_size f) in *.
  assert (0 <= W * B * H < 2 ^ 32) as Ht by (split; [nia|exact HT]).
  rewrite (ua_ok m 32 (W * B)) by nia. cbn [bind]. rewrite ua_ok by lia. cbn [bind].
  unfold unity_crnd_unpack_level. change CRNMAX_LEVELS with 16.
  destruct (Z.ltb_spec (W * B * H) 8); [nia|]. destruct (Z.leb_spec 16 level); [lia|]. cbn [orb].
  rewrite (level_source_ok u d level U1 U2 Eh) by lia. cbn [bind].
  rewrite Ece, Ecs, Eae, Eal in L2.
  destruct (unity_unpack_level_2 m u _ _ _ _ _) as [out|e|]; cbn [safe bind fst snd] in *; [split; [reflexivity|exact L2]|exact L2|exact L2].
Qed.

(** ** Files that differ in the levels only *)
Lemma u_written_same n d d' k : u_written d k -> bytes d' -> same_below n d d' -> stored_below n d ->
  u_written d' k /\ header_at d' = header_at d /\ levels_of d' = levels_of d.
Proof.
  intros (Hb & L1 & L2 & WF & Any & (i & ie & is_ & je & js & T1 & T2 & T3 & T4 & T5 & T6) & HC & HA) Hb' HB (S1 & S2 & S3 & S4).
  assert (0 <= levels_of d) as HL.
  { unfold levels_of. pose proof (bytes_znth d 16 Hb). lia. }
  pose proof S1 as S1'. unfold header_room in S1'. assert (70 <= n) as Hn by lia. pose proof HB as [L E].
  pose proof (header_same n d d' HB HL S1) as EH. pose proof (levels_same n d d' HB ltac:(lia)) as EL.
  split; [|split; [exact EH|exact EL]].
  unfold u_written, tables_written, u_color_written, u_alpha_written, palette_holds, header_room in *. unfold has_color, has_alpha in *. cbv zeta in *. rewrite L, EH, EL.
  split; [exact Hb'|]. split; [exact L1|]. split; [exact L2|].
  split. { unfold well_formed. rewrite L, (E 0), (E 1), !(number_same n d d' HB) by lia. exact WF. }
  split; [exact Any|].
  split. { exists i, ie, is_, je, js. repeat (split; [assumption|]). apply (holds_same n d d' _ _ _ HB S2 T6). }
  split.
  - intros C. destruct (HC C) as [CE (s & j & B1 & B2 & B3)]. destruct (S3 C) as [P1 P2].
    split; [|exists s, j; split; [assumption|]; split; [assumption|]; apply (holds_same n d d' _ _ _ HB P2 B3)].
    destruct (is_etc (h_format (header_at d))).
    + destruct CE as (s0 & i0 & A1 & A2 & A3). exists s0, i0. split; [assumption|]. split; [assumption|]. apply (holds_same n d d' _ _ _ HB P1 A3).
    + destruct CE as (s5 & s6 & i5 & i6 & A1 & A2 & A3). exists s5, s6, i5, i6. split; [assumption|]. split; [assumption|]. apply (holds_same n d d' _ _ _ HB P1 A3).
  - intros C. destruct (HA C) as [(s8 & i8 & A1 & A3) (s & j & B1 & B2 & B3)]. destruct (S4 C) as [P1 P2].
    split; [exists s8, i8|exists s, j]; (split; [assumption|]); [|split; [assumption|]]; [apply (holds_same n d d' _ _ _ HB P1 A3)|apply (holds_same n d d' _ _ _ HB P2 B3)].
Qed.
