(** * Proofs about crunch files of which only the codes are as they should be. *)
From Verif Require Import Base BaseLemmas ModelCrn ModelCrunch SpecCrn SpecCrnHeader SpecCrnFile SpecCrnTexel SpecCrnLevel SpecCrnSound SpecHuff SpecCrnErr SpecCrnSafe SpecCrnCodes SpecLoops
  ProofCrnBits ProofCrnRead ProofCrnModel ProofCrnPalette ProofAstcRange ProofLoops
  ProofCrnHeader ProofHuff ProofCrnIndex ProofCrnGrid ProofCrnLevel ProofCrnFile ProofCrnDecode ProofCrnWhole ProofCrnSound ProofCrnSoundFmt ProofCrnSoundFile
  ProofHuffAll ProofCrnErr ProofCrnSafe ProofCrnSafeFile.

Lemma carries_steady c bs : carries c bs -> c_pos c < zlen (c_buf c) -> steady c.
Proof.
  intros (_ & P & E & B & more & (L & L' & V) & _) Hp. pose proof (zlen_nonneg B) as N. pose proof (value_range B) as R. rewrite L in N, R.
  split; [|split; [lia|exact E]]. split; [lia|]. rewrite V.
  replace (2 ^ 32) with (2 ^ c_bit_count c * 2 ^ (32 - c_bit_count c)) by (rewrite <- Z.pow_add_r by lia; f_equal; lia).
  assert (0 < 2 ^ (32 - c_bit_count c)) by (apply Z.pow_pos_nonneg; lia). nia.
Qed.
Definition ample (c : codec) (rest : list bool) : Prop := 8 <= zlen rest \/ c_end c + 1 < zlen (c_buf c).
Lemma before_steady c0 rest c : ample c0 rest -> before c0 rest c -> steady c.
Proof.
  intros A ([C P] & E1 & E2). apply (carries_steady c rest C). destruct A as [A|A]; [lia|]. rewrite E1. pose proof C as (_ & Q & _). lia.
Qed.
Lemma ample_room c rest : ample c rest -> room c rest.
Proof. intros [H|H]; [left; lia|right; exact H]. Qed.

Lemma open_start data ofs size items : bytes data -> starts_with data ofs size items ->
  exists src c rest, slice_from data ofs = Ok src /\ start_decoding src size = Ok c /\
    before c (flat_map item_bits items ++ rest) c /\ ample c rest /\ Forall item_ok items.
Proof.
  intros Hb (H1 & H2 & H3 & F & rest & E & R). exists (skipn (Z.to_nat ofs) data).
  destruct (start_alive (skipn (Z.to_nat ofs) data) size (flat_map item_bits items ++ rest) []) as (c & S & A & B & En & _).
  { apply bytes_skipn, Hb. } { rewrite zlen_skipn by lia. lia. } { rewrite app_nil_r. exact E. }
  exists c, rest. split; [apply slice_from_ok; lia|]. split; [exact S|]. split; [split; [exact A|auto]|]. split; [|exact F].
  destruct R as [R|R]; [left; exact R|right]. rewrite B, En, zlen_skipn by lia. lia.
Qed.

Lemma take_code m (inc : Prop) c0 rest sizes items more c N : ample c0 rest -> coding sizes items -> Forall item_ok (items ++ more) ->
  before c0 (flat_map item_bits (items ++ more) ++ rest) c -> has_word sizes -> symbols_below (N + 1) sizes -> (incomplete sizes -> inc) ->
  exists md c', receive_model m c = Ok (md, c') /\ serves m inc md N /\ before c0 (flat_map item_bits more ++ rest) c' /\ Forall item_ok more.
Proof.
  intros A C F B Hw Hs Hi. destruct (take_model m c0 rest sizes items more c (ample_room _ _ A) C F B) as (md & c' & E & P & B' & F').
  exists md, c'. split; [exact E|]. split; [|auto]. exists sizes. destruct C as ((C1 & C2 & _) & _). split; [split; assumption|]. split; [exact P|]. split; [exact Hw|].
  split; [intros s Hc; specialize (Hs s Hc); lia|]. exact Hi.
Qed.
Lemma below_all sizes items : coding sizes items -> symbols_below (8191 + 1) sizes.
Proof. intros ((C & _) & _) s (S & _). lia. Qed.

Section Palettes.
Context (m : build) (inc : Prop) (data : list Z).
Hypothesis Hb : bytes data.
Let h := header_at data.

Lemma decode_calm2 {B} (Q : B -> Prop) md N c (k : Z * codec -> res B) : serves m inc md N -> steady c ->
  (forall s c', 0 <= s <= N -> steady c' -> calm inc Q (k (s, c'))) -> calm inc Q (bind (decode m md c) k).
Proof. intros Hs Sc K. eapply calm_bind; [exact (decode_calm m inc md N c Hs Sc)|]. intros [s c'] [R S]. apply K; assumption. Qed.

Lemma color_ends_calm s5 s6 i5 i6 : coding s5 i5 -> coding s6 i6 -> has_word s5 -> has_word s6 -> (incomplete s5 -> inc) -> (incomplete s6 -> inc) ->
  palette_starts data (h_color_endpoints h) (i5 ++ i6) -> calm inc (fun _ => True) (decode_color_endpoints m data h).
Proof.
  intros C5 C6 W5 W6 I5 I6 Hs. destruct (open_start _ _ _ _ Hb Hs) as (src & c & rest & E1 & E2 & B & R & F).
  unfold decode_color_endpoints. rewrite E1. cbn [bind]. rewrite E2. cbn [bind].
  destruct (take_code m inc c rest s5 i5 i6 c 8191 R C5 F B W5 (below_all _ _ C5) I5) as (m5 & c1 & -> & P5 & B1 & F1). cbn [bind].
  rewrite <- (app_nil_r i6) in B1, F1.
  destruct (take_code m inc c rest s6 i6 [] c1 8191 R C6 F1 B1 W6 (below_all _ _ C6) I6) as (m6 & c2 & -> & P6 & B2 & _). cbn [bind].
  pose proof (before_steady _ _ _ R B2) as S2.
  eapply calm_bind; [apply (calm_for_range inc (fun _ (st : Z * Z * Z * Z * Z * Z * list Z * codec) => steady (snd st)) _ (p_num (h_color_endpoints h)) 0); [exact S2|exact (proj1 (number_num data 33 Hb))|]|].
  - intros i [[[[[[[a b] cc] dd] e] f] pal] cd] Hi S. unfold color_endpoint_step. cbn [snd] in S.
    repeat (eapply decode_calm2; [eassumption|eassumption|]; intros ? ? ? ?). cbn [calm snd]. assumption.
  - intros [[[[[[[a b] cc] dd] e] f] pal] cd] _. exact Logic.I.
Qed.

Definition sixteen (mx : Z) (cur : list Z) : Prop := exists v, cur = tab 16 v /\ forall k, 0 <= k < 16 -> 0 <= v k < mx + 1.
Lemma sel_step_calm mx b cur dm c : 0 <= b -> mx + 1 = 2 ^ b -> sixteen mx cur ->
  serves m inc dm ((2 * mx + 1) * (2 * mx + 1) - 1) -> steady c ->
  calm inc (fun r => sixteen mx (fst r) /\ steady (snd r)) (selector_step m mx dm (fst (deltas mx)) (snd (deltas mx)) (cur, c)).
Proof.
  intros Hb0 Eb Hc Hs Sc. unfold selector_step.
  assert (0 < 2 ^ b) as Hp by (apply Z.pow_pos_nonneg; lia).
  assert (forall z, 0 <= Z.land z mx < mx + 1) as LM.
  { intros z. replace mx with (Z.ones b) by (rewrite Z.ones_equiv; lia). rewrite Z.land_ones by lia. pose proof (Z.mod_pos_bound z (2 ^ b) Hp). rewrite Z.ones_equiv. lia. }
  apply (calm_for_range inc (fun _ (st : list Z * codec) => sixteen mx (fst st) /\ steady (snd st)) _ 8 0); [auto|lia|].
  intros j [cur' cd] Hj ((v & E & V) & S). cbn [fst snd] in E, S. subst cur'. eapply decode_calm2; [exact Hs|exact S|]. intros s c' Hr Sc'.
  cbn [fst snd deltas]. rewrite idx_tab by lia. cbn [bind]. rewrite idx_tab by lia. cbn [bind]. rewrite upd_tab_if by lia. cbn [bind].
  rewrite idx_tab by lia. cbn [bind]. rewrite idx_tab by lia. cbn [bind]. rewrite upd_tab_if by lia. cbn [bind calm fst snd].
  split; [|exact Sc']. eexists. split; [reflexivity|]. intros k Hk. cbv beta. destruct (k =? j * 2 + 1); [apply LM|]. destruct (k =? j * 2); [apply LM|apply V, Hk].
Qed.
Lemma sixteen_zero mx : 0 <= mx -> sixteen mx (repeat 0 16).
Proof. intros H. exists (fun _ => 0). split; [reflexivity|]. intros k _. lia. Qed.

Lemma sels_calm mx b dm n c (pack : list Z -> res (list Z)) : 0 <= b -> mx + 1 = 2 ^ b -> 0 <= n ->
  serves m inc dm ((2 * mx + 1) * (2 * mx + 1) - 1) -> steady c -> (forall cur, sixteen mx cur -> exists v, pack cur = Ok v) ->
  calm inc (fun _ => True) (for_range 0 n (fun _ st =>
      let '(cur, pal, cd) := st in
      let* (cur, cd) := selector_step m mx dm (fst (deltas mx)) (snd (deltas mx)) (cur, cd) in
      let* v := pack cur in
      Ok (cur, pal ++ v, cd)) (repeat 0 16, [], c)).
Proof.
  intros Hb0 Eb Hn Hs Sc HP. assert (0 < 2 ^ b) as Hp by (apply Z.pow_pos_nonneg; lia).
  eapply calm_weaken; [|apply (calm_for_range inc (fun _ (st : list Z * list Z * codec) => sixteen mx (fst (fst st)) /\ steady (snd st)) _ n 0)].
  - intros a _. exact Logic.I.
  - split; [apply sixteen_zero; lia|exact Sc].
  - exact Hn.
  - intros i [[cur pal] cd] Hi [S1 S2]. cbn [fst snd] in S1, S2. eapply calm_bind; [exact (sel_step_calm mx b cur dm cd Hb0 Eb S1 Hs S2)|].
    intros [cur' cd'] [S1' S2']. cbn [fst snd] in S1', S2'. destruct (HP cur' S1') as (v & ->). cbn [bind calm fst snd]. auto.
Qed.

Lemma color_sels_calm s i : coding s i -> has_word s -> symbols_below 49 s -> (incomplete s -> inc) ->
  palette_starts data (h_color_selectors h) i -> calm inc (fun _ => True) (decode_color_selectors m data h).
Proof.
  intros C W B49 I Hs. destruct (open_start _ _ _ _ Hb Hs) as (src & c & rest & E1 & E2 & B & R & F).
  unfold decode_color_selectors. rewrite E1. cbn [bind]. rewrite E2. cbn [bind]. rewrite <- (app_nil_r i) in B, F.
  destruct (take_code m inc c rest s i [] c 48 R C F B W B49 I) as (md & c1 & -> & P & B1 & _). cbn [bind].
  rewrite delta_tables_ok by lia. cbn [bind]. rewrite (surjective_pairing (deltas 3)).
  eapply calm_bind; [|intros [[cur pal] cd] _; exact Logic.I].
  pose proof (sels_calm 3 2 md (p_num (h_color_selectors h)) c1 (fun cur => let* v := pack_color_selector cur in Ok [v]) ltac:(lia) eq_refl (proj1 (number_num data 41 Hb)) P (before_steady _ _ _ R B1)) as G.
  erewrite for_range_ext; [apply G|].
  - intros cur (v & -> & V). rewrite pack_color_ok by (intros k Hk; specialize (V k Hk); lia). cbn [bind]. eauto.
  - intros j [[cur pal] cd] _. destruct (selector_step m 3 md (fst (deltas 3)) (snd (deltas 3)) (cur, cd)) as [[cur' cd']| |]; cbn [bind]; [|reflexivity|reflexivity].
    destruct (pack_color_selector cur'); reflexivity.
Qed.
Lemma alpha_sels_calm s i : coding s i -> has_word s -> symbols_below 225 s -> (incomplete s -> inc) ->
  palette_starts data (h_alpha_selectors h) i -> calm inc (fun _ => True) (decode_alpha_selectors m data h).
Proof.
  intros C W B49 I Hs. destruct (open_start _ _ _ _ Hb Hs) as (src & c & rest & E1 & E2 & B & R & F).
  unfold decode_alpha_selectors. rewrite E1. cbn [bind]. rewrite E2. cbn [bind]. rewrite <- (app_nil_r i) in B, F.
  destruct (take_code m inc c rest s i [] c 224 R C F B W B49 I) as (md & c1 & -> & P & B1 & _). cbn [bind].
  rewrite delta_tables_ok by lia. cbn [bind]. rewrite (surjective_pairing (deltas 7)).
  eapply calm_bind; [|intros [[cur pal] cd] _; exact Logic.I].
  apply (sels_calm 7 3 md (p_num (h_alpha_selectors h)) c1 pack_alpha_selector ltac:(lia) eq_refl (proj1 (number_num data 57 Hb)) P (before_steady _ _ _ R B1)).
  intros cur (v & -> & V). rewrite pack_alpha_ok by (intros k Hk; specialize (V k Hk); lia). eauto.
Qed.
Lemma alpha_ends_calm s i : coding s i -> has_word s -> (incomplete s -> inc) ->
  palette_starts data (h_alpha_endpoints h) i -> calm inc (fun _ => True) (decode_alpha_endpoints m data h).
Proof.
  intros C W I Hs. destruct (open_start _ _ _ _ Hb Hs) as (src & c & rest & E1 & E2 & B & R & F).
  unfold decode_alpha_endpoints. rewrite E1. cbn [bind]. rewrite E2. cbn [bind]. rewrite <- (app_nil_r i) in B, F.
  destruct (take_code m inc c rest s i [] c 8191 R C F B W (below_all _ _ C) I) as (md & c1 & -> & P & B1 & _). cbn [bind].
  eapply calm_bind; [apply (calm_for_range inc (fun _ (st : Z * Z * list Z * codec) => steady (snd st)) _ (p_num (h_alpha_endpoints h)) 0); [exact (before_steady _ _ _ R B1)|exact (proj1 (number_num data 49 Hb))|]|].
  - intros j [[[a b] pal] cd] Hj S. cbn [snd] in S. repeat (eapply decode_calm2; [eassumption|eassumption|]; intros ? ? ? ?). cbn [calm snd]. assumption.
  - intros [[[a b] pal] cd] _. exact Logic.I.
Qed.
End Palettes.

Lemma init_calm m data sizes q : codes_written data sizes q -> sturdy data q ->
  calm (palette_gap data q) (fun u => forall x, kind_used data x -> prepare_decoder_tables m (sizes x) = Ok (dm_of u x) /\ code_lengths (sizes x))
    (unpacker_init m data (zlen data)).
Proof.
  intros (Hb & L & Rm & WF & HH & HT & HC & HA) [SC SA].
  destruct (tables_exact m data _ Hb HH HT) as (first & e0 & s0 & e1 & s1 & ET & P0 & P1 & P2). cbn [k_sizes only_codes] in P0, P1, P2.
  assert (forall x, kind_used data x -> code_lengths (sizes x)) as CL.
  { destruct HT as (i & ie & is_ & je & js & C0 & C1 & C2 & _). cbn [k_sizes only_codes] in C0, C1, C2.
    intros x Hx. destruct x; cbn [kind_used] in Hx; try (apply C1 in Hx); try (apply C2 in Hx); unfold coding in *; tauto. }
  unfold unpacker_init. rewrite (header_code data Hb). destruct (Z.ltb_spec (zlen data) 74); [lia|]. destruct (Z.ltb_spec (zlen data) (header_room data)); [lia|].
  rewrite WF. cbn [bind]. rewrite ET. cbn [bind]. set (h := header_at data) in *.
  apply calm_bind with (P := fun _ => True).
  { unfold has_color in HC, SC. fold h in HC, SC. destruct (Z.eqb_spec (p_num (h_color_endpoints h)) 0) as [E|E]; cbn [negb]; [exact Logic.I|].
    destruct (HC E) as ((i5 & i6 & C5 & C6 & V1) & (i & C & V2)). destruct (SC E) as (W5 & W6 & W & B).
    eapply calm_bind; [apply (color_ends_calm m _ data Hb (q_five q) (q_six q) i5 i6 C5 C6 W5 W6); [intros G; left; auto|intros G; left; auto|exact V1]|]. intros ce _.
    eapply calm_bind; [apply (color_sels_calm m _ data Hb (q_color q) i C W B); [intros G; left; auto|exact V2]|]. intros cs _. exact Logic.I. }
  intros [ce cs] _. apply calm_bind with (P := fun _ => True).
  { unfold has_alpha in HA, SA. fold h in HA, SA. destruct (Z.eqb_spec (p_num (h_alpha_endpoints h)) 0) as [E|E]; cbn [negb]; [exact Logic.I|].
    destruct (HA E) as ((i8 & C8 & V1) & (i & C & V2)). destruct (SA E) as (W8 & W & B).
    eapply calm_bind; [apply (alpha_ends_calm m _ data Hb (q_byte q) i8 C8 W8); [intros G; right; auto|exact V1]|]. intros ae _.
    eapply calm_bind; [apply (alpha_sels_calm m _ data Hb (q_alpha q) i C W B); [intros G; right; auto|exact V2]|]. intros al _. exact Logic.I. }
  intros [ae al] _. cbn [calm]. intros x Hx. split; [|apply CL, Hx].
  destruct x; cbn [kind_used] in Hx; unfold dm_of; cbn [u_first_dm u_endpoint_dm0 u_endpoint_dm1 u_selector_dm0 u_selector_dm1]; try (apply P1 in Hx; tauto); try (apply P2 in Hx; tauto). exact P0.
Qed.

Lemma known_planes f ce cs ae al : f = 0 \/ 2 <= f <= 9 -> planes_of f ce cs ae al <> [].
Proof.
  intros Hf. unfold planes_of. destruct (Z.eqb_spec f 0); [discriminate|]. destruct (Z.leb_spec 2 f); [|lia]. destruct (Z.leb_spec f 6); cbn [andb]; [discriminate|].
  destruct (Z.eqb_spec f 7); [discriminate|]. destruct (Z.eqb_spec f 8); [discriminate|]. destruct (Z.eqb_spec f 9); [discriminate|lia].
Qed.

Lemma codes_safe m data sizes q level : let f := number data 18 1 in
  let W := level_cols (number data 12 2) level in let H := level_cols (number data 14 2) level in let faces := number data 17 1 in
  codes_written data sizes q -> sturdy data q -> suited data sizes -> 0 <= level < 16 -> level < levels_of data ->
  level_start data level < level_stop data level -> level_stop data level <= zlen data ->
  1 <= faces -> faces = 1 \/ H mod 2 = 0 -> level_end m f W H faces < 2 ^ 31 -> f = 0 \/ 2 <= f <= 9 ->
  palette_gap data q /\ crunch_unpack_level m data (zlen data) level = Err "Failed to initialize Crunch decompressor." \/
  exists ce cs ae al, palette_sizes data ce cs ae al /\ let planes := planes_of f ce cs ae al in
  safe (exists x, In x (kinds_of planes) /\ incomplete (sizes x)) (lost_in f)
    (fun r => fst r = f /\ exists P, all_fit planes P W H faces /\ snd r = chunk_picture planes P W H faces) (crunch_unpack_level m data (zlen data) level).
Proof.
  intros f W H faces HCW HSt HSu Hl HL H1 H2 HF HS HZ Hf. pose proof (init_calm m data sizes q HCW HSt) as IC.
  pose proof HCW as (Hb & L & Rm & WF & _).
  destruct (unpacker_init m data (zlen data)) as [u|e|] eqn:Ei; cbn [calm] in IC; [|left|contradiction].
  - right. destruct (init_palettes m data u Hb Ei) as [SZ _]. destruct (init_sound m data u Hb Ei) as (_ & _ & _ & _ & _ & _ & U7).
    exists (u_color_endpoints u), (u_color_selectors u), (u_alpha_endpoints u), (u_alpha_selectors u). split; [exact SZ|]. cbv zeta.
    pose proof (HSu _ _ _ _ SZ) as HR. fold f in HR.
    assert (crnd_unpack_begin m data (zlen data) = Ok u) as Eu.
    { unfold crnd_unpack_begin. change CRNHEADER_MIN_SIZE with 62. destruct (Z.ltb_spec (zlen data) 62); [lia|]. rewrite Ei. reflexivity. }
    apply level_safe; auto; [|apply known_planes; exact Hf]. intros x Hx. apply IC.
    assert (forall p, In p (planes_of f (u_color_endpoints u) (u_color_selectors u) (u_alpha_endpoints u) (u_alpha_selectors u)) ->
      kind_used data (pl_end p) /\ kind_used data (pl_sel p)) as G.
    { intros p I. destruct (proj2 HR p I) as [[M _] _]. destruct SZ as (S1 & _ & S2 & _).
      change (number data 39 2) with (p_num (h_color_endpoints (header_at data))) in S1. change (number data 55 2) with (p_num (h_alpha_endpoints (header_at data))) in S2.
      destruct (plane_in _ _ _ _ _ _ I) as [-> | ->]; cbn [color_plane alpha_plane pl_ends pl_end pl_sel kind_used] in *.
      - assert (has_color data) by (unfold has_color; lia). auto.
      - assert (has_alpha data) by (unfold has_alpha; lia). auto. }
    destruct Hx as [<-|Hx]; [exact Logic.I|]. apply in_app_or in Hx. rewrite !in_map_iff in Hx. destruct Hx as [(p & <- & I)|(p & <- & I)]; apply G, I.
  - split; [exact IC|]. unfold crunch_unpack_level. rewrite (info_code data Hb). destruct (Z.ltb_spec (zlen data) 74); [lia|]. destruct (Z.ltb_spec (zlen data) (header_room data)); [lia|].
    rewrite WF. cbn [andb].
    assert (znth data 18 = f) as E18. { unfold f, number. change (zrange 0 1) with [0]. cbn [fold_right]. change (18 + 0) with 18. change (256 ^ (1 - 1 - 0)) with 1. lia. }
    rewrite E18. destruct (Z.leb_spec f 15); [|lia]. cbn [or_err bind]. unfold crnd_unpack_begin. change CRNHEADER_MIN_SIZE with 62. destruct (Z.ltb_spec (zlen data) 62); [lia|].
    rewrite Ei. reflexivity.
Qed.
