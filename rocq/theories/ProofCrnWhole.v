(** * Proofs about whole crunch files: tables, palettes and levels. *)
From Verif Require Import Base BaseLemmas ModelCrn ModelCrunch SpecCrn SpecCrnHeader SpecCrnLevel SpecCrnFile
  ProofHuff ProofCrnBits ProofCrnRead ProofCrnHeader ProofAstcRange ProofCrnLevel ProofCrnModel ProofCrnPalette ProofCrnFile.

Lemma open_section data ofs size items : bytes data -> holds data ofs size items ->
  exists src c rest, slice_from data ofs = Ok src /\ start_decoding src size = Ok c /\
    before c (flat_map item_bits items ++ rest) c /\ room c rest.
Proof.
  intros Hb (H1 & H2 & H3 & _ & rest & E & R). exists (skipn (Z.to_nat ofs) data).
  destruct (start_alive (skipn (Z.to_nat ofs) data) size (flat_map item_bits items ++ rest) []) as (c & S & A & B & En & _).
  { apply bytes_skipn, Hb. } { rewrite zlen_skipn by lia. lia. } { rewrite app_nil_r. exact E. }
  exists c, rest. split; [apply slice_from_ok; lia|]. split; [exact S|]. split; [split; [exact A|auto]|].
  destruct R as [R|R]; [left; exact R|right]. rewrite B, En, zlen_skipn by lia. lia.
Qed.

Lemma holds_items data ofs size items : holds data ofs size items -> Forall item_ok items.
Proof. intros (_ & _ & _ & H & _). exact H. Qed.

Lemma take_model m c0 rest sizes items more c : room c0 rest -> coding sizes items -> Forall item_ok (items ++ more) ->
  before c0 (flat_map item_bits (items ++ more) ++ rest) c ->
  exists md c', receive_model m c = Ok (md, c') /\ prepare_decoder_tables m sizes = Ok md /\
    before c0 (flat_map item_bits more ++ rest) c' /\ Forall item_ok more.
Proof.
  intros R [HL HS] HI B. apply Forall_app in HI. destruct HI as [HI1 HI2]. rewrite flat_map_app, <- app_assoc in B.
  destruct (receive_model_ok m c0 sizes items (flat_map item_bits more ++ rest) c HS HL HI1 (room_app _ _ _ R) B) as (md & c' & E & P & B').
  exists md, c'. auto.
Qed.

Lemma number_num d o : bytes d -> 0 <= p_num (palette_at d o) < 65536.
Proof. intros Hb. apply (number_range d (o + 6) 2 Hb). lia. Qed.

Section Parts.
Context (m : build) (data : list Z) (k : contents).
Hypothesis Hb : bytes data.
Let h := header_at data.

Lemma color_ends_exact s5 s6 i5 i6 : coding s5 i5 -> coding s6 i6 ->
  palette_holds data (h_color_endpoints h) (i5 ++ i6 ++ color_end_items s5 s6 (k_color_ends k) (p_num (h_color_endpoints h))) ->
  decode_color_endpoints m data h = Ok (color_ends (k_color_ends k) (p_num (h_color_endpoints h))).
Proof.
  intros C5 C6 H. pose proof (holds_items _ _ _ _ H) as HI. destruct (open_section _ _ _ _ Hb H) as (src & c & rest & E1 & E2 & B & R).
  unfold decode_color_endpoints. rewrite E1. cbn [bind]. rewrite E2. cbn [bind].
  destruct (take_model m c rest s5 i5 _ c R C5 HI B) as (m5 & c1 & -> & P5 & B1 & HI1). cbn [bind].
  destruct (take_model m c rest s6 i6 _ c1 R C6 HI1 B1) as (m6 & c2 & -> & P6 & B2 & HI2). cbn [bind].
  destruct (color_ends_ok m c rest R s5 s6 m5 m6 (k_color_ends k) (p_num (h_color_endpoints h)) c2 (proj1 (number_num data 33 Hb)) P5 P6 HI2 B2) as (s & c' & ->).
  destruct s as [[[[[a b] r] e] f] g]. reflexivity.
Qed.
Lemma color_sels_exact s i : coding s i -> (forall a j, 0 <= k_color_sels k a j < 49) ->
  palette_holds data (h_color_selectors h) (i ++ selector_items s (k_color_sels k) (p_num (h_color_selectors h))) ->
  decode_color_selectors m data h = Ok (color_sels (k_color_sels k) (p_num (h_color_selectors h))).
Proof.
  intros C HD H. pose proof (holds_items _ _ _ _ H) as HI. destruct (open_section _ _ _ _ Hb H) as (src & c & rest & E1 & E2 & B & R).
  unfold decode_color_selectors. rewrite E1. cbn [bind]. rewrite E2. cbn [bind].
  destruct (take_model m c rest s i _ c R C HI B) as (md & c1 & -> & P & B1 & HI1). cbn [bind].
  rewrite delta_tables_ok by lia. cbn [bind]. rewrite (surjective_pairing (deltas 3)).
  pose proof (selectors_ok m c rest R 3 2 s md (k_color_sels k) (p_num (h_color_selectors h)) c1 (fun cur => let* v := pack_color_selector cur in Ok [v])
    (fun i => [digits 4 16 (fun x => znth color_code (selector_value 3 (k_color_sels k) i x))]) (proj1 (number_num data 41 Hb)) ltac:(lia) eq_refl P HD) as K.
  destruct K as (cur & c' & E); [|exact HI1|exact B1|].
  { intros j Hj. rewrite pack_color_ok; [reflexivity|]. intros x Hx. apply Z.mod_pos_bound. lia. }
  match type of E with for_range 0 ?n ?g ?s0 = _ => match goal with |- bind (for_range 0 n ?g' s0) _ = _ => replace (for_range 0 n g' s0) with (for_range 0 n g s0) end end.
  2: { apply for_range_ext. intros j [[cur0 pal] cd] Hj. destruct (selector_step _ _ _ _ _ _) as [[cur1 cd1]| |]; cbn [bind]; try reflexivity.
       destruct (pack_color_selector cur1); reflexivity. }
  rewrite E. reflexivity.
Qed.
Lemma alpha_ends_exact s8 i : coding s8 i ->
  palette_holds data (h_alpha_endpoints h) (i ++ alpha_end_items s8 (k_alpha_ends k) (p_num (h_alpha_endpoints h))) ->
  decode_alpha_endpoints m data h = Ok (alpha_ends (k_alpha_ends k) (p_num (h_alpha_endpoints h))).
Proof.
  intros C H. pose proof (holds_items _ _ _ _ H) as HI. destruct (open_section _ _ _ _ Hb H) as (src & c & rest & E1 & E2 & B & R).
  unfold decode_alpha_endpoints. rewrite E1. cbn [bind]. rewrite E2. cbn [bind].
  destruct (take_model m c rest s8 i _ c R C HI B) as (md & c1 & -> & P & B1 & HI1). cbn [bind].
  destruct (alpha_ends_ok m c rest R s8 md (k_alpha_ends k) (p_num (h_alpha_endpoints h)) c1 (proj1 (number_num data 49 Hb)) P HI1 B1) as (a & b & c' & E).
  cbv zeta in E |- *. rewrite E. reflexivity.
Qed.
Lemma alpha_sels_exact s i : coding s i -> (forall a j, 0 <= k_alpha_sels k a j < 225) ->
  palette_holds data (h_alpha_selectors h) (i ++ selector_items s (k_alpha_sels k) (p_num (h_alpha_selectors h))) ->
  decode_alpha_selectors m data h = Ok (alpha_sels (k_alpha_sels k) (p_num (h_alpha_selectors h))).
Proof.
  intros C HD H. pose proof (holds_items _ _ _ _ H) as HI. destruct (open_section _ _ _ _ Hb H) as (src & c & rest & E1 & E2 & B & R).
  unfold decode_alpha_selectors. rewrite E1. cbn [bind]. rewrite E2. cbn [bind].
  destruct (take_model m c rest s i _ c R C HI B) as (md & c1 & -> & P & B1 & HI1). cbn [bind].
  rewrite delta_tables_ok by lia. cbn [bind]. rewrite (surjective_pairing (deltas 7)).
  destruct (selectors_ok m c rest R 7 3 s md (k_alpha_sels k) (p_num (h_alpha_selectors h)) c1 pack_alpha_selector
    (fun i => let v := digits 8 16 (fun x => znth alpha_code (selector_value 7 (k_alpha_sels k) i x)) in map (fun w => v / 65536 ^ w mod 65536) (zrange 0 3))
    (proj1 (number_num data 57 Hb)) ltac:(lia) eq_refl P HD) as (cur & c' & E); [|exact HI1|exact B1|].
  { intros j Hj. apply pack_alpha_ok. intros x Hx. apply Z.mod_pos_bound. lia. }
  rewrite E. reflexivity.
Qed.

Lemma tables_exact : has_color data \/ has_alpha data -> tables_written data k ->
  exists first e0 s0 e1 s1, init_tables m data h = Ok (first, e0, s0, e1, s1) /\
    prepare_decoder_tables m (k_sizes k Chunks) = Ok first /\
    (has_color data -> prepare_decoder_tables m (k_sizes k ColorEnd) = Ok e0 /\ prepare_decoder_tables m (k_sizes k ColorSel) = Ok s0) /\
    (has_alpha data -> prepare_decoder_tables m (k_sizes k AlphaEnd) = Ok e1 /\ prepare_decoder_tables m (k_sizes k AlphaSel) = Ok s1).
Proof.
  intros HH (i & ie & is_ & je & js & C0 & C1 & C2 & N1 & N2 & H). pose proof (holds_items _ _ _ _ H) as HI. destruct (open_section _ _ _ _ Hb H) as (src & c & rest & E1 & E2 & B & R).
  unfold init_tables. fold h in E1, E2. rewrite E1. cbn [bind]. rewrite E2. cbn [bind].
  destruct (take_model m c rest _ i _ c R C0 HI B) as (first & c1 & -> & P0 & B1 & HI1). cbn [bind].
  unfold has_color, has_alpha in *. fold h in HH, C1, C2, N1, N2 |- *.
  destruct (Z.eqb_spec (p_num (h_color_endpoints h)) 0) as [Z1|Z1], (Z.eqb_spec (p_num (h_alpha_endpoints h)) 0) as [Z2|Z2]; cbn [andb negb]; try (exfalso; lia).
  - destruct (N1 ltac:(lia)) as [-> ->]. cbn [app] in B1, HI1. destruct (C2 Z2) as [CE CS]. cbn [bind].
    destruct (take_model m c rest _ je _ c1 R CE HI1 B1) as (e1 & c2 & -> & PE & B2 & HI2). cbn [bind].
    rewrite <- (app_nil_r js) in B2, HI2.
    destruct (take_model m c rest _ js _ c2 R CS HI2 B2) as (s1 & c3 & -> & PS & B3 & HI3). cbn [bind].
    eexists _, _, _, _, _. split; [reflexivity|]. split; [exact P0|]. split; [lia|auto].
  - destruct (C1 Z1) as [CE CS]. destruct (N2 ltac:(lia)) as [-> ->].
    destruct (take_model m c rest _ ie _ c1 R CE HI1 B1) as (e0 & c2 & -> & PE & B2 & HI2). cbn [bind].
    destruct (take_model m c rest _ is_ _ c2 R CS HI2 B2) as (s0 & c3 & -> & PS & B3 & HI3). cbn [bind].
    eexists _, _, _, _, _. split; [reflexivity|]. split; [exact P0|]. split; [auto|lia].
  - destruct (C1 Z1) as [CE CS]. destruct (C2 Z2) as [DE DS].
    destruct (take_model m c rest _ ie _ c1 R CE HI1 B1) as (e0 & c2 & -> & PE & B2 & HI2). cbn [bind].
    destruct (take_model m c rest _ is_ _ c2 R CS HI2 B2) as (s0 & c3 & -> & PS & B3 & HI3). cbn [bind].
    destruct (take_model m c rest _ je _ c3 R DE HI3 B3) as (e1 & c4 & -> & PE1 & B4 & HI4). cbn [bind].
    rewrite <- (app_nil_r js) in B4, HI4.
    destruct (take_model m c rest _ js _ c4 R DS HI4 B4) as (s1 & c5 & -> & PS1 & B5 & HI5). cbn [bind].
    eexists _, _, _, _, _. split; [reflexivity|]. split; [exact P0|]. split; auto.
Qed.
End Parts.

(** The unpacker of a written file. *)
Definition kind_used (data : list Z) (x : kind) : Prop :=
  match x with Chunks => True | ColorEnd | ColorSel => has_color data | AlphaEnd | AlphaSel => has_alpha data end.

Lemma init_exact m data k : written data k ->
  exists u, crnd_unpack_begin m data (zlen data) = Ok u /\ u_header u = header_at data /\
    file_planes data k = planes_of (number data 18 1) (u_color_endpoints u) (u_color_selectors u) (u_alpha_endpoints u) (u_alpha_selectors u) /\
    u_color_endpoints u = color_ends (k_color_ends k) (p_num (h_color_endpoints (header_at data))) /\
    u_alpha_endpoints u = alpha_ends (k_alpha_ends k) (p_num (h_alpha_endpoints (header_at data))) /\
    (forall x, kind_used data x -> prepare_decoder_tables m (k_sizes k x) = Ok (dm_of u x) /\ code_lengths (k_sizes k x)).
Proof.
  intros (Hb & L & Rm & WF & HH & HT & HC & HA).
  destruct (tables_exact m data k Hb HH HT) as (first & e0 & s0 & e1 & s1 & ET & P0 & P1 & P2).
  assert (forall x, kind_used data x -> code_lengths (k_sizes k x)) as CL.
  { destruct HT as (i & ie & is_ & je & js & C0 & C1 & C2 & _). intros x Hx. destruct x; cbn [kind_used] in Hx; try (apply C1 in Hx); try (apply C2 in Hx); unfold coding in *; tauto. }
  unfold crnd_unpack_begin. change CRNHEADER_MIN_SIZE with 62. destruct (Z.ltb_spec (zlen data) 62); [lia|].
  unfold unpacker_init. rewrite (header_code data Hb). destruct (Z.ltb_spec (zlen data) 74); [lia|]. destruct (Z.ltb_spec (zlen data) (header_room data)); [lia|].
  rewrite WF. cbn [bind]. rewrite ET. cbn [bind].
  set (h := header_at data) in *.
  assert (exists cs, (if negb (p_num (h_color_endpoints h) =? 0) then let* ce := decode_color_endpoints m data h in let* cs := decode_color_selectors m data h in Ok (ce, cs) else Ok ([], [])) =
    Ok (color_ends (k_color_ends k) (p_num (h_color_endpoints h)), cs) /\ cs = (if p_num (h_color_endpoints h) =? 0 then [] else color_sels (k_color_sels k) (p_num (h_color_selectors h)))) as (cs & -> & Ecs).
  { unfold has_color in HC. fold h in HC. destruct (Z.eqb_spec (p_num (h_color_endpoints h)) 0) as [E|E]; cbn [negb].
    - rewrite E. eexists. split; reflexivity.
    - destruct (HC E) as ((s5 & s6 & i5 & i6 & C5 & C6 & V1) & (s & i & C & HD & V2)).
      unfold h. rewrite (color_ends_exact m data k Hb s5 s6 i5 i6 C5 C6 V1). cbn [bind]. rewrite (color_sels_exact m data k Hb s i C HD V2). cbn [bind]. eexists. split; reflexivity. }
  cbn [bind].
  assert (exists al, (if negb (p_num (h_alpha_endpoints h) =? 0) then let* ae := decode_alpha_endpoints m data h in let* al := decode_alpha_selectors m data h in Ok (ae, al) else Ok ([], [])) =
    Ok (alpha_ends (k_alpha_ends k) (p_num (h_alpha_endpoints h)), al) /\ al = (if p_num (h_alpha_endpoints h) =? 0 then [] else alpha_sels (k_alpha_sels k) (p_num (h_alpha_selectors h)))) as (al & -> & Eal).
  { unfold has_alpha in HA. fold h in HA. destruct (Z.eqb_spec (p_num (h_alpha_endpoints h)) 0) as [E|E]; cbn [negb].
    - rewrite E. eexists. split; reflexivity.
    - destruct (HA E) as ((s8 & i8 & C8 & V1) & (s & i & C & HD & V2)).
      unfold h. rewrite (alpha_ends_exact m data k Hb s8 i8 C8 V1). cbn [bind]. rewrite (alpha_sels_exact m data k Hb s i C HD V2). cbn [bind]. eexists. split; reflexivity. }
  cbn [bind or_err]. eexists. split; [reflexivity|]. cbn [u_header u_color_endpoints u_color_selectors u_alpha_endpoints u_alpha_selectors].
  split; [reflexivity|]. split; [unfold file_planes; fold h; rewrite Ecs, Eal; reflexivity|]. split; [reflexivity|]. split; [reflexivity|].
  intros x Hx. split; [|apply CL, Hx]. destruct x; cbn [kind_used] in Hx; unfold dm_of; cbn [u_first_dm u_endpoint_dm0 u_endpoint_dm1 u_selector_dm0 u_selector_dm1]; try (apply P1 in Hx; tauto); try (apply P2 in Hx; tauto). exact P0.
Qed.

(** The codes used by the symbols of a level. *)
Lemma symbol_kinds planes D W H faces kv : In kv (level_symbols planes D W H faces) ->
  fst kv = Chunks \/ exists p, 0 <= p < zlen planes /\ (fst kv = pl_end (plane_at planes p) \/ fst kv = pl_sel (plane_at planes p)).
Proof.
  intros I. unfold level_symbols in I. apply in_flat_map in I. destruct I as (n & _ & I). unfold chunk_symbols in I.
  apply in_app_or in I. destruct I as [I|I].
  - destruct (n mod 3 =? 0); [destruct I as [<-|[]]; left; reflexivity|destruct I].
  - right. apply in_app_or in I. destruct I as [I|I]; apply in_flat_map in I.
    + destruct I as (p & Ip & I). apply in_map_iff in I. destruct I as (t & <- & _). apply in_zrange in Ip. exists p. split; [lia|left; reflexivity].
    + destruct I as (x & _ & I). apply in_map_iff in I. destruct I as (p & <- & Ip). apply in_zrange in Ip. exists p. split; [lia|right; reflexivity].
Qed.

Lemma plane_kind f ce cs ae al p : let planes := planes_of f ce cs ae al in 0 <= p < zlen planes ->
  plane_at planes p = color_plane ce cs \/ plane_at planes p = alpha_plane ae al.
Proof.
  intros planes Hp. unfold planes in *. clear planes. unfold planes_of in *.
  assert (forall x y : plane, 0 <= p < zlen [x; y] -> plane_at [x; y] p = x \/ plane_at [x; y] p = y) as K2.
  { intros x y H. assert (p = 0 \/ p = 1) as [->| ->] by (unfold zlen in H; cbn in H; lia); [left|right]; reflexivity. }
  assert (forall x : plane, 0 <= p < zlen [x] -> plane_at [x] p = x) as K1.
  { intros x H. assert (p = 0) as -> by (unfold zlen in H; cbn in H; lia). reflexivity. }
  destruct (f =? 0); [left; apply K1, Hp|]. destruct ((2 <=? f) && (f <=? 6)); [destruct (K2 _ _ Hp); auto|].
  destruct ((f =? 7) || (f =? 8)); [destruct (K2 _ _ Hp); auto|]. destruct (f =? 9); [right; apply K1, Hp|].
  unfold zlen in Hp. cbn in Hp. lia.
Qed.

Lemma level_exact m data k level D rest : let planes := file_planes data k in
  let W := level_cols (number data 12 2) level in let H := level_cols (number data 14 2) level in let faces := number data 17 1 in
  written data k -> 0 <= level < 16 -> level < levels_of data ->
  level_start data level < level_stop data level -> level_stop data level <= zlen data ->
  1 <= faces -> faces = 1 \/ H mod 2 = 0 ->
  level_end m (number data 18 1) W H faces < 2 ^ 31 ->
  planes <> [] -> sensible planes D ->
  (forall kv, In kv (level_symbols planes D W H faces) -> coded (k_sizes k (fst kv)) (snd kv)) ->
  bit_stream (section data (level_start data level) (level_stop data level - level_start data level)) =
    symbol_bits (k_sizes k) (level_symbols planes D W H faces) ++ rest ->
  crunch_unpack_level m data (zlen data) level = Ok (number data 18 1, level_blocks planes D W H faces).
Proof.
  intros planes W H faces HWr Hl HL H1 H2 HF HS HZ Hp Hs HC BS.
  destruct (init_exact m data k HWr) as (u & Eu & Eh & Ep & Ec & Ea & HK). pose proof HWr as (Hb & _).
  unfold planes in *. rewrite Ep in *. eapply level_ok; eauto.
  intros kv I. destruct (HK (fst kv)) as [K1 K2]; [|split; [exact K2|split; [exact K1|apply HC, I]]].
  destruct (symbol_kinds _ _ _ _ _ _ I) as [->|(p & Hpp & K)]; [exact Logic.I|].
  destruct Hs as (_ & Hs & _). specialize (Hs p 0 0 Hpp). destruct (plane_kind _ _ _ _ _ p Hpp) as [E|E]; rewrite E in Hs, K; cbn [color_plane alpha_plane pl_ends pl_end pl_sel] in Hs, K.
  - assert (has_color data) as G. { unfold has_color. intros Z0. rewrite Ec, Z0 in Hs. change (zlen (color_ends (k_color_ends k) 0)) with 0 in Hs. lia. }
    destruct K as [->| ->]; exact G.
  - assert (has_alpha data) as G. { unfold has_alpha. intros Z0. rewrite Ea, Z0 in Hs. change (zlen (alpha_ends (k_alpha_ends k) 0)) with 0 in Hs. lia. }
    destruct K as [->| ->]; exact G.
Qed.
