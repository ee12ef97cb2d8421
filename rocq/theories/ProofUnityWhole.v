(** * Proofs about whole Unity crunch files. *)
From Verif Require Import Base BaseLemmas ModelCrn ModelCrunch ModelUnity SpecCrn SpecCrnHeader SpecCrnLevel SpecCrnFile SpecUnity SpecUnityFile
  ProofHuff ProofCrnBits ProofCrnRead ProofCrnHeader ProofAstcRange ProofCrnGrid ProofCrnLevel ProofCrnModel ProofCrnPalette ProofCrnFile ProofCrnWhole
  ProofUnityGrid ProofUnityLevel ProofUnityEtc ProofUnityPalette.

(** ** Palettes *)
Section Parts.
Context (m : build) (data : list Z) (k : contents).
Hypothesis Hb : bytes data.
Let h := header_at data.

Lemma u_etc_ends_exact s i : is_etc (h_format h) = true -> coding s i -> (forall a j, 0 <= k_color_ends k a j < 32) ->
  palette_holds data (h_color_endpoints h) (i ++ etc_end_items s (k_color_ends k) (p_num (h_color_endpoints h))) ->
  unity_color_endpoints m data h = Ok (u_ce data k).
Proof.
  intros Ef C HD H. pose proof (holds_items _ _ _ _ H) as HI. destruct (open_section _ _ _ _ Hb H) as (src & c & rest & E1 & E2 & B & R).
  unfold unity_color_endpoints. rewrite E1. cbn [bind]. rewrite E2. cbn [bind].
  destruct (take_model m c rest s i _ c R C HI B) as (md & c1 & -> & P & B1 & HI1). cbn [bind].
  rewrite etc_blocks_etc, Ef, subblocks_halves.
  destruct (etc_ends_ok m c rest R (has_halves (h_format h)) s md (k_color_ends k) (p_num (h_color_endpoints h)) c1 (proj1 (number_num data 33 Hb)) P HD HI1 B1) as (a & c' & ->).
  cbn [bind]. unfold u_ce, u_color_ends. fold h. rewrite Ef. reflexivity.
Qed.
Lemma u_color_ends_exact s5 s6 i5 i6 : is_etc (h_format h) = false -> coding s5 i5 -> coding s6 i6 ->
  palette_holds data (h_color_endpoints h) (i5 ++ i6 ++ color_end_items s5 s6 (k_color_ends k) (p_num (h_color_endpoints h))) ->
  unity_color_endpoints m data h = Ok (u_ce data k).
Proof.
  intros Ef C5 C6 H. pose proof (holds_items _ _ _ _ H) as HI. destruct (open_section _ _ _ _ Hb H) as (src & c & rest & E1 & E2 & B & R).
  unfold unity_color_endpoints. rewrite E1. cbn [bind]. rewrite E2. cbn [bind].
  destruct (take_model m c rest s5 i5 _ c R C5 HI B) as (m5 & c1 & -> & P5 & B1 & HI1). cbn [bind].
  rewrite etc_blocks_etc, Ef.
  destruct (take_model m c rest s6 i6 _ c1 R C6 HI1 B1) as (m6 & c2 & -> & P6 & B2 & HI2). cbn [bind].
  destruct (color_ends_ok m c rest R s5 s6 m5 m6 (k_color_ends k) (p_num (h_color_endpoints h)) c2 (proj1 (number_num data 33 Hb)) P5 P6 HI2 B2) as (s & c' & ->).
  destruct s as [[[[[a b] r] e] f] g]. cbn [bind]. unfold u_ce, u_color_ends. fold h. rewrite Ef. reflexivity.
Qed.
Lemma u_color_sels_exact s i : coding s i -> (forall a j, 0 <= k_color_sels k a j < 16) ->
  palette_holds data (h_color_selectors h) (i ++ selector_items s (k_color_sels k) (p_num (h_color_selectors h))) ->
  unity_color_selectors m data h = Ok (u_color_sels (h_format h) (k_color_sels k) (p_num (h_color_selectors h))).
Proof.
  intros C HD H. pose proof (holds_items _ _ _ _ H) as HI. destruct (open_section _ _ _ _ Hb H) as (src & c & rest & E1 & E2 & B & R).
  unfold unity_color_selectors. rewrite E1. cbn [bind]. rewrite E2. cbn [bind].
  destruct (take_model m c rest s i _ c R C HI B) as (md & c1 & -> & P & B1 & HI1). cbn [bind]. cbv zeta.
  destruct (color_sels_ok m c rest R (h_format h) s md (k_color_sels k) (p_num (h_color_selectors h)) c1 (proj1 (number_num data 41 Hb)) P HD HI1 B1) as (a & c' & ->).
  reflexivity.
Qed.
Lemma u_alpha_sels_exact s i : coding s i -> (forall a j, 0 <= k_alpha_sels k a j < 64) ->
  palette_holds data (h_alpha_selectors h) (i ++ selector_items s (k_alpha_sels k) (p_num (h_alpha_selectors h))) ->
  (if h_format h =? FmtEtc2as then unity_alpha_selectors_etcs m data h
   else if h_format h =? FmtEtc2a then unity_alpha_selectors_etc m data h else unity_alpha_selectors m data h) =
  Ok (u_alpha_sels (h_format h) (k_alpha_sels k) (p_num (h_alpha_selectors h))).
Proof.
  intros C HD H. pose proof (holds_items _ _ _ _ H) as HI. destruct (open_section _ _ _ _ Hb H) as (src & c & rest & E1 & E2 & B & R).
  destruct (take_model m c rest s i _ c R C HI B) as (md & c1 & EM & P & B1 & HI1). change FmtEtc2as with 14. change FmtEtc2a with 12.
  destruct (Z.eqb_spec (h_format h) 14) as [F1|F1]; [|destruct (Z.eqb_spec (h_format h) 12) as [F2|F2]].
  - unfold unity_alpha_selectors_etcs. rewrite E1. cbn [bind]. rewrite E2. cbn [bind]. rewrite EM. cbn [bind].
    destruct (alpha_etcs_ok m c rest R s md (k_alpha_sels k) (p_num (h_alpha_selectors h)) c1 (proj1 (number_num data 57 Hb)) P HD HI1 B1) as (a & c' & E).
    cbv zeta in E |- *. rewrite E. rewrite F1. reflexivity.
  - unfold unity_alpha_selectors_etc. rewrite E1. cbn [bind]. rewrite E2. cbn [bind]. rewrite EM. cbn [bind].
    destruct (alpha_etc_ok m c rest R s md (k_alpha_sels k) (p_num (h_alpha_selectors h)) c1 (proj1 (number_num data 57 Hb)) P HD HI1 B1) as (a & c' & E).
    cbv zeta in E |- *. rewrite E. rewrite F2. reflexivity.
  - unfold unity_alpha_selectors. rewrite E1. cbn [bind]. rewrite E2. cbn [bind]. rewrite EM. cbn [bind]. rewrite pair_table. cbn [bind].
    destruct (alpha_sels_ok m c rest R (h_format h) s md (k_alpha_sels k) (p_num (h_alpha_selectors h)) c1 (proj1 (number_num data 57 Hb)) P HD F2 F1 HI1 B1) as (a & b & c' & E).
    rewrite E. reflexivity.
Qed.
End Parts.

(** ** The unpacker of a written file *)
Lemma unity_init_exact m data k : u_written data k ->
  exists u, unity_unpack_begin m data (zlen data) = Ok u /\ u_data u = data /\ u_data_size u = zlen data /\ u_header u = header_at data /\
    u_color_endpoints u = u_ce data k /\ u_color_selectors u = u_cs data k /\ u_alpha_endpoints u = u_ae data k /\ u_alpha_selectors u = u_al data k /\
    (forall x, kind_used data x -> prepare_decoder_tables m (k_sizes k x) = Ok (dm_of u x) /\ code_lengths (k_sizes k x)).
Proof.
  intros (Hb & L & Rm & WF & HH & HT & HC & HA).
  destruct (tables_exact m data k Hb HH HT) as (first & e0 & s0 & e1 & s1 & ET & P0 & P1 & P2).
  assert (forall x, kind_used data x -> code_lengths (k_sizes k x)) as CL.
  { destruct HT as (i & ie & is_ & je & js & C0 & C1 & C2 & _). intros x Hx. destruct x; cbn [kind_used] in Hx; try (apply C1 in Hx); try (apply C2 in Hx); unfold coding in *; tauto. }
  unfold unity_unpack_begin. change CRNHEADER_MIN_SIZE with 62. destruct (Z.ltb_spec (zlen data) 62); [lia|].
  unfold unity_init. rewrite (header_code data Hb). destruct (Z.ltb_spec (zlen data) 74); [lia|]. destruct (Z.ltb_spec (zlen data) (header_room data)); [lia|].
  rewrite WF. cbn [bind]. rewrite ET. cbn [bind].
  set (h := header_at data) in *.
  assert ((if negb (p_num (h_color_endpoints h) =? 0) then let* ce := unity_color_endpoints m data h in let* cs := unity_color_selectors m data h in Ok (ce, cs) else Ok ([], [])) =
    Ok (u_ce data k, u_cs data k)) as ->.
  { unfold has_color in HC. fold h in HC. unfold u_cs. fold h. destruct (Z.eqb_spec (p_num (h_color_endpoints h)) 0) as [E|E]; cbn [negb].
    - unfold u_ce. fold h. rewrite E. unfold u_color_ends, etc_ends, color_ends. destruct (is_etc (h_format h)); reflexivity.
    - destruct (HC E) as (V1 & (s & i & C & HD & V2)). fold h in V1.
      assert (unity_color_endpoints m data h = Ok (u_ce data k)) as ->.
      { destruct (is_etc (h_format h)) eqn:Ef.
        - destruct V1 as (s1' & i1 & C1 & HD1 & V1). exact (u_etc_ends_exact m data k Hb s1' i1 Ef C1 HD1 V1).
        - destruct V1 as (s5 & s6 & i5 & i6 & C5 & C6 & V1). exact (u_color_ends_exact m data k Hb s5 s6 i5 i6 Ef C5 C6 V1). }
      cbn [bind]. unfold h. rewrite (u_color_sels_exact m data k Hb s i C HD V2). reflexivity. }
  cbn [bind].
  assert ((if negb (p_num (h_alpha_endpoints h) =? 0) then let* ae := decode_alpha_endpoints m data h in
      let* al := if h_format h =? FmtEtc2as then unity_alpha_selectors_etcs m data h else if h_format h =? FmtEtc2a then unity_alpha_selectors_etc m data h else unity_alpha_selectors m data h in Ok (ae, al) else Ok ([], [])) =
    Ok (u_ae data k, u_al data k)) as ->.
  { unfold has_alpha in HA. fold h in HA. unfold u_ae, u_al. fold h. destruct (Z.eqb_spec (p_num (h_alpha_endpoints h)) 0) as [E|E]; cbn [negb].
    - rewrite E. reflexivity.
    - destruct (HA E) as ((s8 & i8 & C8 & V1) & (s & i & C & HD & V2)).
      unfold h. rewrite (alpha_ends_exact m data k Hb s8 i8 C8 V1). cbn [bind]. rewrite (u_alpha_sels_exact m data k Hb s i C HD V2). reflexivity. }
  cbn [bind or_err]. eexists. split; [reflexivity|]. cbn [u_data u_data_size u_header u_color_endpoints u_color_selectors u_alpha_endpoints u_alpha_selectors].
  repeat (split; [reflexivity|]).
  intros x Hx. split; [|apply CL, Hx]. destruct x; cbn [kind_used] in Hx; unfold dm_of; cbn [u_first_dm u_endpoint_dm0 u_endpoint_dm1 u_selector_dm0 u_selector_dm1]; try (apply P1 in Hx; tauto); try (apply P2 in Hx; tauto). exact P0.
Qed.

(** Facts about the palettes. *)
Lemma zlen_map_range {A} (g : Z -> A) n : 0 <= n -> zlen (map g (zrange 0 n)) = n.
Proof. intros Hn. unfold zlen. rewrite map_length. pose proof (zlen_tab n (fun _ => 0)) as Z1. unfold tab, zlen in Z1. rewrite map_length in Z1. lia. Qed.
Lemma u_ce_len data k : bytes data -> zlen (u_ce data k) = p_num (h_color_endpoints (header_at data)).
Proof.
  intros Hb. pose proof (number_num data 33 Hb) as N. unfold u_ce, u_color_ends, etc_ends, color_ends.
  destruct (is_etc _); apply zlen_map_range, (proj1 N).
Qed.
Lemma u_ae_len data k : bytes data -> zlen (u_ae data k) = p_num (h_alpha_endpoints (header_at data)).
Proof. intros Hb. pose proof (number_num data 49 Hb) as N. apply zlen_map_range, (proj1 N). Qed.
Lemma u_ae_words data k : words (u_ae data k).
Proof.
  apply Forall_forall. intros x Hx. apply in_map_iff in Hx. destruct Hx as (i & <- & _). unfold moved.
  pose proof (Z.mod_pos_bound (zsum (i + 1) (fun i' => k_alpha_ends k i' 0)) 256 ltac:(lia)). pose proof (Z.mod_pos_bound (zsum (i + 1) (fun i' => k_alpha_ends k i' 1)) 256 ltac:(lia)). lia.
Qed.
Lemma etc_alpha_words_ok g : words (etc_alpha_words g).
Proof.
  apply Forall_forall. intros x Hx. apply in_map_iff in Hx. destruct Hx as (w & <- & _).
  apply (digits_bound 256 2); [lia|lia|]. intros. apply Z.mod_pos_bound. lia.
Qed.
Lemma words_flat_map {A} (g : A -> list Z) l : (forall a, words (g a)) -> words (flat_map g l).
Proof. intros H. induction l as [|a l IH]; [constructor|]. cbn [flat_map]. apply Forall_app. split; [apply H|exact IH]. Qed.
Lemma u_al_words data k : words (u_al data k).
Proof.
  unfold u_al. destruct (p_num _ =? 0); [constructor|]. unfold u_alpha_sels. cbv zeta. destruct (_ =? 12); [|destruct (_ =? 14)].
  - apply Forall_app. split; [apply words_flat_map; intros i; apply Forall_app; split; apply etc_alpha_words_ok|]. repeat constructor; lia.
  - apply Forall_app. split; [apply words_flat_map; intros i; apply etc_alpha_words_ok|]. repeat constructor; lia.
  - apply words_flat_map. intros i. apply Forall_forall. intros x Hx. apply in_map_iff in Hx. destruct Hx as (w & <- & _). apply Z.mod_pos_bound. lia.
Qed.

(** ** A level *)
Section Level.
Context (m : build) (data : list Z) (k : contents) (u : unpacker) (level : Z) (L : u_level).
Let f := number data 18 1.
Let W := level_cols (number data 12 2) level.
Let H := level_cols (number data 14 2) level.
Let faces := number data 17 1.
Let B := u_block_size f.
Hypothesis Hb : bytes data.
Hypothesis Eh : u_header u = header_at data.
Hypothesis Ece : u_color_endpoints u = u_ce data k.
Hypothesis Ecs : u_color_selectors u = u_cs data k.
Hypothesis Eae : u_alpha_endpoints u = u_ae data k.
Hypothesis Eal : u_alpha_selectors u = u_al data k.
Hypothesis Hl : 0 <= level.
Hypothesis HF : 1 <= faces.
Hypothesis HS : faces = 1 \/ H mod 2 = 0.
Hypothesis HM : m = Wrapping \/ W mod 2 = 0.
Hypothesis HZ : (faces * H + 2) * (W + 2) * B <= 2 ^ 48.
Hypothesis HT : W * B * H < 2 ^ 32.
Hypothesis HL : u_level_fits data k L.

Lemma u_planes_split ce cs ae al : u_planes_of f ce cs ae al <> [] ->
  f = 0 \/ f = 13 \/ 2 <= f <= 6 \/ f = 14 \/ f = 7 \/ f = 8 \/ f = 9.
Proof.
  clear. unfold u_planes_of. destruct (Z.eqb_spec f 0); [lia|]. destruct (Z.eqb_spec f 13); [lia|]. cbn [orb].
  destruct (Z.leb_spec 2 f), (Z.leb_spec f 6); cbn [andb orb]; try lia; destruct (Z.eqb_spec f 14); try lia; cbn [orb];
  destruct (Z.eqb_spec f 7); try lia; destruct (Z.eqb_spec f 8); try lia; destruct (Z.eqb_spec f 9); try lia; cbn [orb]; congruence.
Qed.
Lemma u_formats : u_level_fits data k L -> f = 0 \/ f = 13 \/ 2 <= f <= 6 \/ f = 14 \/ f = 7 \/ f = 8 \/ f = 9 \/ f = 10 \/ f = 11 \/ f = 12.
Proof.
  clear. intros HL. unfold u_level_fits in HL. destruct L as [D|E].
  - destruct HL as [Hp _]. pose proof (u_planes_split _ _ _ _ Hp). lia.
  - destruct HL as [Hh _]. unfold has_halves in Hh. apply andb_prop in Hh. destruct Hh as [H1 H2]. apply Z.leb_le in H1, H2. fold f in H1, H2. lia.
Qed.
Lemma u_level_2_ok c src size : feeds m u c (u_stream data k level L) -> start_decoding src size = Ok c ->
  unity_unpack_level_2 m u src size (W * B * H) (W * B) level = Ok (u_blocks_of_level data k level L).
Proof.
  intros F St.
  pose proof (number_range data 12 2 Hb ltac:(lia)) as Nw. pose proof (number_range data 14 2 Hb ltac:(lia)) as Nh.
  destruct (level_cols_eq (number data 12 2) level ltac:(lia) Hl) as [E1 HW]. destruct (level_cols_eq (number data 14 2) level ltac:(lia) Hl) as [E2 HH].
  fold W in E1, HW. fold H in E2, HH.
  unfold unity_unpack_level_2. rewrite Eh. cbn [h_width h_height h_format h_faces header_at]. rewrite E1, E2. fold f faces.
  change FmtDxt1 with 0. change FmtDxt5a with 9. change FmtDxt5 with 2. change FmtDxt5CcxY with 3. change FmtDxt5XGxR with 4. change FmtDxt5XGbr with 5. change FmtDxt5Agbr with 6. change FmtDxnXy with 7. change FmtDxnYx with 8.
  change FmtEtc1 with 10. change FmtEtc2 with 11. change FmtEtc2a with 12. change FmtEtc1s with 13. change FmtEtc2as with 14.
  fold (u_block_size f). fold B.
  assert (B = u_block_size f) as BE by reflexivity.
  assert (B = 8 \/ B = 16) as HB by (unfold B, u_block_size; destruct (_ || _); auto).
  assert ((W * B =? 0) = false) as -> by (apply Z.eqb_neq; nia).
  assert ((W * B <? B * W) = false) as -> by (apply Z.ltb_ge; lia).
  assert (Z.land (W * B) 3 = 0) as ->. { change 3 with (Z.ones 2). rewrite Z.land_ones by lia. change (2 ^ 2) with 4. destruct HB as [->| ->]; dlia. }
  cbn [orb negb Z.eqb bind].
  assert (0 <= W * B * H < 2 ^ 32) as Ht by (split; [nia|exact HT]).
  rewrite ua_ok by lia. cbn [bind]. rewrite Z.ltb_irrefl. rewrite St. cbn [or_err bind].
  set (ret := repeat 0 (Z.to_nat (W * B * H * faces))).
  assert (zlen ret = faces * H * W * B) as Lr. { unfold ret. unfold zlen. rewrite repeat_length, Z2Nat.id by nia. ring. }
  assert (h_faces (u_header u) = faces) as Ef by (rewrite Eh; reflexivity).
  assert (0 < zlen (u_ce data k) -> u_color_ready u) as RC. { intros P. unfold u_color_ready. rewrite Ece. pose proof (number_num data 33 Hb) as N. rewrite u_ce_len in * by exact Hb. change (palette_at data 33) with (h_color_endpoints (header_at data)) in N. lia. }
  assert (0 < zlen (u_ae data k) -> u_alpha_ready u) as RA.
  { intros P. unfold u_alpha_ready. rewrite Eae, Eal. pose proof (number_num data 49 Hb) as N. split; [|split; [apply u_ae_words|apply u_al_words]].
    rewrite u_ae_len in * by exact Hb. change (palette_at data 49) with (h_alpha_endpoints (header_at data)) in N. lia. }
  unfold u_stream in F. unfold u_blocks_of_level, u_block_at. unfold u_level_fits in HL. fold f in F, HL |- *. fold W H faces in F |- *.
  rewrite <- Ece in HL, F, RC |- *. rewrite <- Ecs in HL, F |- *. rewrite <- Eae in HL, F, RA |- *. rewrite <- Eal in HL, F |- *. clear Nw Nh E1 E2 Ht St. clearbody B. destruct L as [D|E].
  - destruct HL as [Hp Hs]. fold (u_level_blocks W H faces (u_planes_of f (u_color_endpoints u) (u_color_selectors u) (u_alpha_endpoints u) (u_alpha_selectors u)) D).
    assert (forall p, 0 <= p < zlen (u_planes_of f (u_color_endpoints u) (u_color_selectors u) (u_alpha_endpoints u) (u_alpha_selectors u)) -> 
      0 < pl_ends (plane_at (u_planes_of f (u_color_endpoints u) (u_color_selectors u) (u_alpha_endpoints u) (u_alpha_selectors u)) p)) as PE by (intros p Hpp; destruct Hs as (_ & Hs & _); specialize (Hs p 0 Hpp); lia).
    destruct (u_planes_split _ _ _ _ Hp) as [K|[K|[K|[K|[K|[K|K]]]]]].
    + assert (B = 8) as EB by (rewrite BE, K; reflexivity). rewrite EB in *. unfold u_planes_of, u_order_of in *. rewrite K in *. cbn [Z.eqb orb andb Z.leb Z.compare] in *.
      assert (u_color_ready u) as R by (apply RC, (PE 0); unfold zlen; cbn; lia).
      apply unity_dxt1_ok; auto.
    + assert (B = 8) as EB by (rewrite BE, K; reflexivity). rewrite EB in *. unfold u_planes_of, u_order_of in *. rewrite K in *. cbn [Z.eqb orb andb Z.leb Z.compare Pos.eqb Pos.compare Pos.compare_cont] in *.
      assert (u_color_ready u) as R by (apply RC, (PE 0); unfold zlen; cbn; lia).
      apply unity_dxt1_ok; auto.
    + assert (B = 16) as EB. { rewrite BE. assert (f = 2 \/ f = 3 \/ f = 4 \/ f = 5 \/ f = 6) as [->|[->|[->|[->| ->]]]] by lia; reflexivity. } rewrite EB in *.
      assert (u_planes_of f (u_color_endpoints u) (u_color_selectors u) (u_alpha_endpoints u) (u_alpha_selectors u) = [alpha_plane (u_alpha_endpoints u) (u_alpha_selectors u); color_plane (u_color_endpoints u) (u_color_selectors u)] /\ u_order_of f = [1; 0] /\
        (f =? 0) || (f =? 13) = false /\ (f =? 2) || (f =? 3) || (f =? 5) || (f =? 6) || (f =? 4) || (f =? 14) = true) as (P1 & P2 & -> & ->).
      { assert (f = 2 \/ f = 3 \/ f = 4 \/ f = 5 \/ f = 6) as [->|[->|[->|[->| ->]]]] by lia; repeat split. }
      rewrite P1, P2 in *. assert (u_color_ready u) as R1 by (apply RC, (PE 1); unfold zlen; cbn; lia). assert (u_alpha_ready u) as R2 by (apply RA, (PE 0); unfold zlen; cbn; lia).
      apply unity_dxt5_ok; auto.
    + assert (B = 16) as EB by (rewrite BE, K; reflexivity). rewrite EB in *. unfold u_planes_of, u_order_of in *. rewrite K in *. cbn [Z.eqb orb andb Z.leb Z.compare Pos.eqb Pos.compare Pos.compare_cont] in *.
      assert (u_color_ready u) as R1 by (apply RC, (PE 1); unfold zlen; cbn; lia). assert (u_alpha_ready u) as R2 by (apply RA, (PE 0); unfold zlen; cbn; lia).
      apply unity_dxt5_ok; auto.
    + assert (B = 16) as EB by (rewrite BE, K; reflexivity). rewrite EB in *. unfold u_planes_of, u_order_of in *. rewrite K in *. cbn [Z.eqb orb andb Z.leb Z.compare Pos.eqb Pos.compare Pos.compare_cont] in *.
      assert (u_alpha_ready u) as R2 by (apply RA, (PE 0); unfold zlen; cbn; lia).
      apply unity_dxn_ok; auto.
    + assert (B = 16) as EB by (rewrite BE, K; reflexivity). rewrite EB in *. unfold u_planes_of, u_order_of in *. rewrite K in *. cbn [Z.eqb orb andb Z.leb Z.compare Pos.eqb Pos.compare Pos.compare_cont] in *.
      assert (u_alpha_ready u) as R2 by (apply RA, (PE 0); unfold zlen; cbn; lia).
      apply unity_dxn_ok; auto.
    + assert (B = 8) as EB by (rewrite BE, K; reflexivity). rewrite EB in *. unfold u_planes_of, u_order_of in *. rewrite K in *. cbn [Z.eqb orb andb Z.leb Z.compare Pos.eqb Pos.compare Pos.compare_cont] in *.
      assert (u_alpha_ready u) as R2 by (apply RA, (PE 0); unfold zlen; cbn; lia).
      apply unity_dxt5a_ok; auto.
  - destruct HL as [Hh Hs]. fold (e_level_blocks W H faces (f =? 12) (u_color_endpoints u) (u_color_selectors u) (u_alpha_endpoints u) (u_alpha_selectors u) E).
    assert (0 < zlen (u_color_endpoints u)) as PC by (destruct Hs as (_ & Hs & _); specialize (Hs 0); lia).
    destruct (RC PC) as [_ C1].
    assert (f = 10 \/ f = 11 \/ f = 12) as K. { unfold has_halves in Hh. apply andb_prop in Hh. destruct Hh as [H1 H2]. apply Z.leb_le in H1, H2. lia. }
    assert (f = 12 -> zlen (u_alpha_endpoints u) < 65536 /\ words (u_alpha_endpoints u) /\ words (u_alpha_selectors u)) as C2.
    { intros Kf. destruct RA as [RA1 RA2]; [|split; [lia|exact RA2]]. destruct Hs as (_ & _ & _ & _ & Hs & _). rewrite Kf in Hs. destruct (Hs eq_refl) as [Hs' _]. specialize (Hs' 0). lia. }
    destruct K as [K|[K|K]].
    + assert (B = 8) as EB by (rewrite BE, K; reflexivity). rewrite EB in *. rewrite K in *. cbn [Z.eqb orb Pos.eqb] in *. apply unity_etc1_ok; auto; discriminate.
    + assert (B = 8) as EB by (rewrite BE, K; reflexivity). rewrite EB in *. rewrite K in *. cbn [Z.eqb orb Pos.eqb] in *. apply unity_etc1_ok; auto; discriminate.
    + assert (B = 16) as EB by (rewrite BE, K; reflexivity). rewrite EB in *. rewrite K in *. cbn [Z.eqb orb Pos.eqb] in *. apply unity_etc2a_ok; auto.
Qed.
End Level.

(** The codes used by the symbols of a level. *)
Lemma u_plane_kind f ce cs ae al p : In p (u_order_of f) -> let planes := u_planes_of f ce cs ae al in planes <> [] ->
  0 <= p < zlen planes /\ (plane_at planes p = color_plane ce cs \/ plane_at planes p = alpha_plane ae al).
Proof.
  intros I planes Hp. unfold planes in *. clear planes.
  assert (forall x : plane, 0 <= 0 < zlen [x]) as Z1 by (intros; unfold zlen; cbn [length]; lia).
  assert (forall x y : plane, 0 <= 0 < zlen [x; y] /\ 0 <= 1 < zlen [x; y]) as Z2 by (intros; unfold zlen; cbn [length]; lia).
  unfold u_planes_of, u_order_of in *.
  destruct (Z.eqb_spec f 0) as [F0|F0]; [subst f; destruct I as [<-|[]]; split; [apply Z1|left; reflexivity]|].
  destruct (Z.eqb_spec f 13) as [F1|F1]; [subst f; destruct I as [<-|[]]; split; [apply Z1|left; reflexivity]|]. cbn [orb] in *.
  destruct (((2 <=? f) && (f <=? 6)) || (f =? 14)).
  - destruct I as [<-|[<-|[]]]; (split; [apply Z2|]); [left|right]; reflexivity.
  - destruct ((f =? 7) || (f =? 8)).
    + destruct I as [<-|[<-|[]]]; (split; [apply Z2|]); right; reflexivity.
    + destruct (f =? 9); [|congruence]. destruct I as [<-|[]]; split; [apply Z1|right; reflexivity].
Qed.

Lemma u_stream_kinds data k level L kv : bytes data -> u_level_fits data k L -> In kv (u_stream data k level L) -> kind_used data (fst kv).
Proof.
  intros Hb HL I.
  assert (0 < zlen (u_ce data k) -> has_color data) as GC by (rewrite u_ce_len by exact Hb; unfold has_color; lia).
  assert (0 < zlen (u_ae data k) -> has_alpha data) as GA by (rewrite u_ae_len by exact Hb; unfold has_alpha; lia).
  unfold u_level_fits, u_stream in *. destruct L as [D|E].
  - destruct HL as [Hp (_ & Hs & _)]. apply in_flat_map in I. destruct I as (n & _ & I). unfold u_block_symbols in I.
    assert (forall p, In p (u_order_of (number data 18 1)) -> let planes := u_planes_of (number data 18 1) (u_ce data k) (u_cs data k) (u_ae data k) (u_al data k) in
      kind_used data (pl_end (plane_at planes p)) /\ kind_used data (pl_sel (plane_at planes p))) as K.
    { intros p Ip planes. destruct (u_plane_kind _ (u_ce data k) (u_cs data k) (u_ae data k) (u_al data k) p Ip Hp) as [Rp Kp]. specialize (Hs p 0 Rp).
      fold planes in Hs, Kp. destruct Kp as [Kp|Kp]; rewrite Kp in Hs |- *; cbn [color_plane alpha_plane pl_ends pl_end pl_sel kind_used] in *; [pose proof (GC ltac:(lia))|pose proof (GA ltac:(lia))]; auto. }
    apply in_app_or in I. destruct I as [I|I].
    + destruct (_ && _) in I; [destruct I as [<-|[]]; exact Logic.I|destruct I].
    + apply in_app_or in I. destruct I as [I|I].
      * destruct (_ =? 0) in I; [|destruct I]. apply in_map_iff in I. destruct I as (p & <- & Ip). apply (K p Ip).
      * apply in_map_iff in I. destruct I as (p & <- & Ip). apply (K p Ip).
  - destruct HL as [_ (_ & Hs & _ & _ & Ha & _)]. specialize (Hs 0). pose proof (GC ltac:(lia)) as C.
    assert ((number data 18 1 =? 12) = true -> has_alpha data) as A. { intros Ef. destruct (Ha Ef) as [Ha' _]. specialize (Ha' 0). apply GA. lia. }
    apply in_flat_map in I. destruct I as (n & _ & I). unfold e_block_symbols in I.
    apply in_app_or in I. destruct I as [I|I]; [destruct (_ =? 0) in I; [destruct I as [<-|[]]; exact Logic.I|destruct I]|].
    apply in_app_or in I. destruct I as [I|I].
    + destruct (_ =? 0) in I; [|destruct I]. destruct I as [<-|I]; [exact C|]. destruct (number data 18 1 =? 12); [destruct I as [<-|[]]; exact (A eq_refl)|destruct I].
    + destruct I as [<-|I]; [exact C|]. apply in_app_or in I. destruct I as [I|I].
      * destruct (number data 18 1 =? 12); [destruct I as [<-|[]]; exact (A eq_refl)|destruct I].
      * destruct (_ =? 0) in I; [destruct I|destruct I as [<-|[]]; exact C].
Qed.

Lemma unity_level_exact m data k level L : let f := number data 18 1 in
  let W := level_cols (number data 12 2) level in let H := level_cols (number data 14 2) level in let faces := number data 17 1 in
  u_written data k -> u_level_written data k level L ->
  faces = 1 \/ H mod 2 = 0 -> m = Wrapping \/ W mod 2 = 0 ->
  W * H * u_block_size f < 2 ^ 32 ->
  unity_crunch_unpack_level m data (zlen data) level = Ok (f, u_blocks_of_level data k level L).
Proof.
  intros f W H faces HWr (Hl & HL & H1 & H2 & HF & Fit & HC & rest & BS) HS HM HZ.
  destruct (unity_init_exact m data k HWr) as (u & Eu & U1 & U2 & Eh & Ece & Ecs & Eae & Eal & HK). pose proof HWr as (Hb & L74 & LR & WF & _).
  pose proof (number_range data (70 + 4 * level) 4 Hb ltac:(lia)) as N0. fold (level_start data level) in N0.
  destruct (start_alive (skipn (Z.to_nat (level_start data level)) data) (level_stop data level - level_start data level)
    (symbol_bits (k_sizes k) (u_stream data k level L) ++ rest) []) as (c & St & A & Bc & _ & P0).
  { apply bytes_skipn, Hb. } { rewrite zlen_skipn by lia. lia. } { rewrite app_nil_r. exact BS. }
  assert (feeds m u c (u_stream data k level L)) as F.
  { eapply feeds_ok; [|exact A|rewrite P0, Bc; rewrite zlen_skipn by lia; lia].
    intros kv I. destruct (HK (fst kv) (u_stream_kinds data k level L kv Hb Fit I)) as [K1 K2]. split; [exact K2|]. split; [exact K1|apply HC, I]. }
  unfold unity_crunch_unpack_level. rewrite (info_code data Hb). destruct (Z.ltb_spec (zlen data) 74); [lia|]. destruct (Z.ltb_spec (zlen data) (header_room data)); [lia|].
  rewrite WF. cbn [andb]. pose proof (u_formats data k L Fit) as Pf. fold f in Pf.
  assert (znth data 18 = f) as E18. { unfold f, number. change (zrange 0 1) with [0]. cbn [fold_right]. change (18 + 0) with 18. change (256 ^ (1 - 1 - 0)) with 1. lia. }
  rewrite E18. destruct (Z.leb_spec f 15); [|lia]. cbn [or_err bind]. rewrite Eu. cbn [bind i_width i_height i_format info_at].
  pose proof (number_range data 12 2 Hb ltac:(lia)) as Nw. pose proof (number_range data 14 2 Hb ltac:(lia)) as Nh.
  destruct (level_cols_eq (number data 12 2) level ltac:(lia) ltac:(lia)) as [E1 HW]. destruct (level_cols_eq (number data 14 2) level ltac:(lia) ltac:(lia)) as [E2 HH].
  rewrite (Z.max_comm 1 (Z.shiftr (number data 12 2) level)), (Z.max_comm 1 (Z.shiftr (number data 14 2) level)), E1, E2. fold W in HW |- *. fold H in HH |- *.
  rewrite !(Z.max_r 1) by lia. fold f.
  assert (unity_bytes_per_dxt_block f = Ok (u_block_size f)) as ->.
  { assert (f = 0 \/ f = 2 \/ f = 3 \/ f = 4 \/ f = 5 \/ f = 6 \/ f = 7 \/ f = 8 \/ f = 9 \/ f = 10 \/ f = 11 \/ f = 12 \/ f = 13 \/ f = 14) as Q by lia.
    repeat (destruct Q as [->|Q]; [reflexivity|]). rewrite Q. reflexivity. }
  cbn [bind]. set (B := u_block_size f) in *.
  assert (B = 8 \/ B = 16) as HB by (unfold B, u_block_size; destruct (_ || _); auto).
  pose proof (level_cols_le (number data 12 2) level ltac:(lia) ltac:(lia)) as HW2. pose proof (level_cols_le (number data 14 2) level ltac:(lia) ltac:(lia)) as HH2.
  fold W in HW2. fold H in HH2. pose proof (number_range data 17 1 Hb ltac:(lia)) as Nf. fold faces in HF, Nf.
  assert (W * B * H < 2 ^ 32) as HT by (replace (W * B * H) with (W * H * B) by ring; exact HZ).
  assert (0 <= W * B * H < 2 ^ 32) as Ht by (split; [nia|exact HT]).
  assert ((faces * H + 2) * (W + 2) * B <= 2 ^ 48) as HZ'.
  { clear - HW HW2 HH HH2 HF Nf HB. assert (faces * H <= 255 * 2 ^ 14) as B1 by (apply Z.mul_le_mono_nonneg; lia).
    assert ((faces * H + 2) * (W + 2) <= (255 * 2 ^ 14 + 2) * (2 ^ 14 + 2)) as B2 by (apply Z.mul_le_mono_nonneg; nia).
    assert (0 <= (faces * H + 2) * (W + 2)) by (apply Z.mul_nonneg_nonneg; nia). destruct HB as [-> | ->]; lia. }
  rewrite (ua_ok m 32 (W * B)) by nia. cbn [bind]. rewrite ua_ok by lia. cbn [bind].
  unfold unity_crnd_unpack_level. change CRNMAX_LEVELS with 16.
  destruct (Z.ltb_spec (W * B * H) 8); [nia|]. destruct (Z.leb_spec 16 level); [lia|]. cbn [orb].
  rewrite (level_source_ok u data level U1 U2 Eh) by lia. cbn [bind].
  unfold W, H, B, f. rewrite (u_level_2_ok m data k u level L Hb Eh Ece Ecs Eae Eal ltac:(lia) HF HS HM HZ' HT Fit c _ _ F St). reflexivity.
Qed.
