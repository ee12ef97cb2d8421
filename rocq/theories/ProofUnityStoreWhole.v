(** * Stored Unity crunch files are files of the format. *)
From Verif Require Import Base BaseLemmas ModelCrn SpecCrn SpecCrnHeader SpecCrnLevel SpecCrnFile SpecCrnStore SpecUnity SpecUnityFile SpecUnityStore
  ProofCrnBits ProofCrnHeader ProofCrnGrid ProofCrnLevel ProofCrnFile ProofCrnStore ProofCrnStoreFile ProofCrnStoreWhole ProofUnityGrid ProofUnityPalette
  ProofUnityStore ProofUnityStoreLevel ProofUnityStoreLayout.

Section Items.
Context (f : Z) (Q : u_palettes).
Notation K := (u_stored_contents f Q).
Lemma sent_ok n : Forall item_ok (sent n) /\ 0 <= zlen (flat_map item_bits (sent n)) <= 8274.
Proof. unfold sent. destruct (n =? 0); [split; [constructor|cbn; lia]|]. split; [exact plain_sending_ok|]. rewrite zlen_plain_sending. lia. Qed.
Lemma pack_bound l b : zlen (flat_map item_bits l) <= b -> zlen (pack_items l) <= b / 8 + 2.
Proof. intros H. unfold pack_items. destruct (pack_ok (flat_map item_bits l)) as (_ & -> & _). pose proof (Z.div_le_mono _ _ 8 ltac:(lia) H). lia. Qed.
Lemma u_tables_ok : Forall item_ok (u_table_items Q) /\ zlen (pack_items (u_table_items Q)) <= 5173.
Proof.
  destruct (sent_ok (n_color_ends Q)) as [F1 L1]. destruct (sent_ok (n_alpha_ends Q)) as [F2 L2]. unfold u_table_items. split.
  - repeat (apply Forall_app; split); try assumption. exact plain_sending_ok.
  - apply (pack_bound _ (5 * 8274)). rewrite !flat_map_app, !zlen_app, zlen_plain_sending. lia.
Qed.
Lemma plain_list_ok l n : Forall (fun i => exists v, i = Sym plain_sizes v /\ 0 <= v < 8192) l -> zlen l = n ->
  Forall item_ok (plain_sending ++ l) /\ zlen (flat_map item_bits (plain_sending ++ l)) = 8274 + 13 * n.
Proof.
  intros F L. destruct (zlen_plain_items l F) as [F1 L1]. split; [apply Forall_app; split; [exact plain_sending_ok|exact F1]|].
  rewrite flat_map_app, zlen_app, zlen_plain_sending, L1, L. reflexivity.
Qed.
Lemma selectors_ok d n : 0 <= n -> (forall i j, 0 <= d i j < 8192) ->
  Forall item_ok (plain_sending ++ selector_items plain_sizes d n) /\ zlen (flat_map item_bits (plain_sending ++ selector_items plain_sizes d n)) = 8274 + 104 * n.
Proof.
  intros Hn Hd. destruct (plain_list_ok (selector_items plain_sizes d n) (8 * n)) as [F L].
  - apply Forall_forall. intros x I. apply in_flat_map in I. destruct I as (i & _ & I). apply in_map_iff in I. destruct I as (k & <- & _). exists (d i k). split; [reflexivity|apply Hd].
  - unfold selector_items. rewrite (zlen_flat_any 8); [lia|exact Hn|reflexivity].
  - split; [exact F|]. rewrite L. lia.
Qed.
Lemma u_color_sel_ok : 0 <= n_color_sels Q -> Forall item_ok (u_color_sel_items f Q) /\ zlen (pack_items (u_color_sel_items f Q)) <= 1036 + 13 * n_color_sels Q.
Proof.
  intros Hn. destruct (selectors_ok (k_color_sels K) (n_color_sels Q) Hn) as [F L].
  { intros i j. pose proof (xor_step_range 2 ltac:(lia) (v_color_sels Q) i j). change (2 ^ 2) with 4 in *. unfold u_stored_contents. cbn [k_color_sels]. lia. }
  split; [exact F|]. pose proof (pack_bound _ _ (Z.eq_le_incl _ _ L)) as B. unfold u_color_sel_items. replace (8274 + 104 * n_color_sels Q) with (8274 + 13 * n_color_sels Q * 8) in B by lia. rewrite Z.div_add in B by lia. change (8274 / 8) with 1034 in B. lia.
Qed.
Lemma u_alpha_sel_ok : 0 <= n_alpha_sels Q -> Forall item_ok (u_alpha_sel_items f Q) /\ zlen (pack_items (u_alpha_sel_items f Q)) <= 1036 + 13 * n_alpha_sels Q.
Proof.
  intros Hn. destruct (selectors_ok (k_alpha_sels K) (n_alpha_sels Q) Hn) as [F L].
  { intros i j. pose proof (xor_step_range 3 ltac:(lia) (v_alpha_sels Q) i j). change (2 ^ 3) with 8 in *. unfold u_stored_contents. cbn [k_alpha_sels]. lia. }
  split; [exact F|]. pose proof (pack_bound _ _ (Z.eq_le_incl _ _ L)) as B. unfold u_alpha_sel_items. replace (8274 + 104 * n_alpha_sels Q) with (8274 + 13 * n_alpha_sels Q * 8) in B by lia. rewrite Z.div_add in B by lia. change (8274 / 8) with 1034 in B. lia.
Qed.
Lemma u_alpha_end_ok : 0 <= n_alpha_ends Q -> Forall item_ok (u_alpha_end_items f Q) /\ zlen (pack_items (u_alpha_end_items f Q)) <= 1036 + 4 * n_alpha_ends Q.
Proof.
  intros Hn. destruct (plain_list_ok (alpha_end_items plain_sizes (k_alpha_ends K) (n_alpha_ends Q)) (2 * n_alpha_ends Q)) as [F L].
  - apply Forall_forall. intros x I. apply in_flat_map in I. destruct I as (i & _ & [<-|[<-|[]]]); eexists; (split; [reflexivity|]); apply step_mod_range; lia.
  - unfold alpha_end_items. rewrite (zlen_flat_any 2); [lia|exact Hn|reflexivity].
  - split; [exact F|]. unfold u_alpha_end_items. assert (zlen (flat_map item_bits (plain_sending ++ alpha_end_items plain_sizes (k_alpha_ends K) (n_alpha_ends Q))) <= 8274 + 4 * n_alpha_ends Q * 8) as B by lia. apply pack_bound in B. rewrite Z.div_add in B by lia. change (8274 / 8) with 1034 in B. lia.
Qed.
Lemma u_color_end_ok : 0 <= n_color_ends Q -> Forall item_ok (u_color_end_items f Q) /\ zlen (pack_items (u_color_end_items f Q)) <= 2071 + 10 * n_color_ends Q.
Proof.
  intros Hn. unfold u_color_end_items. destruct (is_etc f) eqn:EF.
  - destruct (plain_list_ok (etc_end_items plain_sizes (k_color_ends K) (n_color_ends Q)) (4 * n_color_ends Q)) as [F L].
    + apply Forall_forall. intros x I. apply in_flat_map in I. destruct I as (i & _ & I). apply in_map_iff in I. destruct I as (k & <- & _). exists (k_color_ends K i k). split; [reflexivity|]. unfold u_stored_contents. cbn [k_color_ends]. rewrite EF. apply step_mod_range. lia.
    + unfold etc_end_items. rewrite (zlen_flat_any 4); [lia|exact Hn|reflexivity].
    + split; [exact F|]. assert (zlen (flat_map item_bits (plain_sending ++ etc_end_items plain_sizes (k_color_ends K) (n_color_ends Q))) <= 8274 + 10 * n_color_ends Q * 8) as B by lia. apply pack_bound in B. rewrite Z.div_add in B by lia. change (8274 / 8) with 1034 in B. lia.
  - destruct (plain_list_ok (color_end_items plain_sizes plain_sizes (k_color_ends K) (n_color_ends Q)) (6 * n_color_ends Q)) as [F L].
    + apply Forall_forall. intros x I. apply in_flat_map in I. destruct I as (i & _ & I). apply in_map_iff in I. destruct I as (k & <- & _). exists (k_color_ends K i k). split; [destruct (is_green k); reflexivity|]. unfold u_stored_contents. cbn [k_color_ends]. rewrite EF. apply step_mod_range. destruct (is_green k); lia.
    + unfold color_end_items. rewrite (zlen_flat_any 6); [lia|exact Hn|reflexivity].
    + split; [apply Forall_app; split; [exact plain_sending_ok|exact F]|].
      assert (zlen (flat_map item_bits (plain_sending ++ plain_sending ++ color_end_items plain_sizes plain_sizes (k_color_ends K) (n_color_ends Q))) <= 16548 + 10 * n_color_ends Q * 8) as B by (rewrite flat_map_app, zlen_app, L, zlen_plain_sending; lia).
      apply pack_bound in B. rewrite Z.div_add in B by lia. change (16548 / 8) with 2068 in B. lia.
Qed.
End Items.

Section File.
Context (f w h faces levels : Z) (Q : u_palettes) (P : Z -> Z -> Z -> Z -> u_cell).
Context (St : u_storable f w h faces levels Q P).
Notation K := (u_stored_contents f Q).
Notation data := (u_store f w h faces levels Q P).
Notation lbits := (fun level => symbol_bits (fun _ => plain_sizes) (u_stored_stream f Q (P level) (level_cols w level) (level_cols h level) faces)).
Notation W level := (level_cols w level).
Notation H level := (level_cols h level).

Lemma u_facts : (f = 0 \/ 2 <= f <= 14) /\ 1 <= w < 65536 /\ 1 <= h < 65536 /\ 1 <= faces < 256 /\ 1 <= levels <= 16 /\
  0 <= n_color_ends Q <= 8192 /\ 0 <= n_color_sels Q <= 8192 /\ 0 <= n_alpha_ends Q <= 8192 /\ 0 <= n_alpha_sels Q <= 8192 /\ u_palettes_ok f Q.
Proof. destruct St as (S1 & S2 & S3 & S4 & S5 & S6 & _). pose proof S6 as (B1 & B2 & B3 & B4 & _). do 9 (split; [assumption|]). exact S6. Qed.
(** Every lemma about the layout applies. *)
Lemma us_hyps : lay_hyps f w h faces levels (n_color_ends Q) (n_color_sels Q) (n_alpha_ends Q) (n_alpha_sels Q) (u_table_items Q) (u_color_end_items f Q) (u_color_sel_items f Q) (u_alpha_end_items f Q) (u_alpha_sel_items f Q) lbits.
Proof.
  pose proof u_facts as (Ff & Fw & Fh & Fa & Fl & F1 & F2 & F3 & F4 & _).
  destruct (u_tables_ok Q) as [T1 T2]; destruct (u_color_end_ok f Q ltac:(lia)) as [A1 A2]; destruct (u_color_sel_ok f Q ltac:(lia)) as [B1 B2];
  destruct (u_alpha_end_ok f Q ltac:(lia)) as [C1 C2]; destruct (u_alpha_sel_ok f Q ltac:(lia)) as [D1 D2].
  split; [lia|]. do 8 (split; [assumption|]). split; [exact T1|]. split; [exact A1|]. split; [exact B1|]. split; [exact C1|]. split; [exact D1|].
  assert (zlen data < 2 ^ 32) as LD by apply St. split; [lia|]. split; [lia|]. split; [lia|]. split; [lia|]. split; [lia|]. exact LD.
Qed.
Notation by_layout L := (L f w h faces levels (n_color_ends Q) (n_color_sels Q) (n_alpha_ends Q) (n_alpha_sels Q) (u_table_items Q) (u_color_end_items f Q) (u_color_sel_items f Q) (u_alpha_end_items f Q) (u_alpha_sel_items f Q) lbits).
Lemma us_w : number data 12 2 = w. Proof. exact (by_layout lay_w us_hyps). Qed.
Lemma us_h : number data 14 2 = h. Proof. exact (by_layout lay_h us_hyps). Qed.
Lemma us_faces : number data 17 1 = faces. Proof. exact (by_layout lay_faces us_hyps). Qed.
Lemma us_format : number data 18 1 = f. Proof. exact (by_layout lay_format us_hyps). Qed.
Lemma us_levels : levels_of data = levels. Proof. exact (by_layout lay_levels us_hyps). Qed.
Lemma us_well : 74 <= zlen data /\ header_room data <= zlen data /\ well_formed data = true. Proof. exact (by_layout lay_well_formed us_hyps). Qed.
Lemma us_bytes : bytes data. Proof. exact (by_layout lay_bytes). Qed.
Lemma us_p1 : exists o s, palette_at data 33 = mkPalette o s (n_color_ends Q) /\ holds data o s (u_color_end_items f Q).
Proof. do 2 eexists. split; [exact (by_layout lay_p1 us_hyps)|exact (by_layout lay_holds1 us_hyps)]. Qed.
Lemma us_p2 : exists o s, palette_at data 41 = mkPalette o s (n_color_sels Q) /\ holds data o s (u_color_sel_items f Q).
Proof. do 2 eexists. split; [exact (by_layout lay_p2 us_hyps)|exact (by_layout lay_holds2 us_hyps)]. Qed.
Lemma us_p3 : exists o s, palette_at data 49 = mkPalette o s (n_alpha_ends Q) /\ holds data o s (u_alpha_end_items f Q).
Proof. do 2 eexists. split; [exact (by_layout lay_p3 us_hyps)|exact (by_layout lay_holds3 us_hyps)]. Qed.
Lemma us_p4 : exists o s, palette_at data 57 = mkPalette o s (n_alpha_sels Q) /\ holds data o s (u_alpha_sel_items f Q).
Proof. do 2 eexists. split; [exact (by_layout lay_p4 us_hyps)|exact (by_layout lay_holds4 us_hyps)]. Qed.
Lemma us_tables : holds data (number data 67 3) (number data 65 2) (u_table_items Q).
Proof.
  assert (number data 65 2 = zlen (pack_items (u_table_items Q)) /\ number data 67 3 = store_head levels) as [-> ->] by exact (by_layout lay_tables us_hyps). exact (by_layout lay_holds_tables us_hyps).
Qed.
Lemma us_stream level : 0 <= level < levels -> level_start data level < level_stop data level /\ level_stop data level <= zlen data /\
  exists rest, bit_stream (section data (level_start data level) (level_stop data level - level_start data level)) = lbits level ++ rest.
Proof. exact (by_layout lay_stream us_hyps level). Qed.

Lemma us_level level : 0 <= level < levels -> 1 <= W level /\ 1 <= H level /\ 1 <= faces /\
  forall g x y, 0 <= g < faces -> 0 <= x < W level -> 0 <= y < H level -> u_cell_ok f Q (P level g x y).
Proof.
  intros Hl. pose proof u_facts as (_ & ? & ? & ? & _). destruct (level_cols_eq w level ltac:(lia) ltac:(lia)) as [_ HW]. destruct (level_cols_eq h level ltac:(lia) ltac:(lia)) as [_ HH].
  split; [exact HW|]. split; [exact HH|]. split; [lia|]. destruct St as (_ & _ & _ & _ & _ & _ & S & _). intros g x y. exact (S level g x y Hl).
Qed.
Lemma us_first : u_cell_ok f Q (P 0 0 0 0).
Proof. pose proof u_facts as (_ & _ & _ & ? & ? & _). destruct (us_level 0 ltac:(lia)) as (HW & HH & _ & S). apply S; lia. Qed.
Lemma us_planes : has_halves f = false -> pal_planes f Q <> [].
Proof.
  intros N. pose proof u_facts as (Hf & _). unfold has_halves in N. unfold pal_planes, u_planes_of.
  destruct ((f =? 0) || (f =? 13)) eqn:E0; [discriminate|]. destruct (((2 <=? f) && (f <=? 6)) || (f =? 14)) eqn:E1; [discriminate|]. destruct ((f =? 7) || (f =? 8)) eqn:E2; [discriminate|]. destruct (f =? 9) eqn:E3; [discriminate|]. lia.
Qed.
Lemma us_some : n_color_ends Q <> 0 \/ n_alpha_ends Q <> 0.
Proof.
  pose proof us_first as C. unfold u_cell_ok in C. pose proof u_facts as (_ & _ & _ & _ & _ & _ & _ & _ & _ & OK). destruct (has_halves f) eqn:EH; [left; lia|].
  pose proof (us_planes EH) as N. assert (0 < zlen (pal_planes f Q)) as Z0. { clear - N. destruct (pal_planes f Q); [contradiction N; reflexivity|]. rewrite zlen_cons. unfold zlen. lia. }
  specialize (C 0 ltac:(lia)). destruct C as [C _]. revert C N. unfold plane_at. change (Z.to_nat 0) with 0%nat. unfold pal_planes, u_planes_of. pose proof (len_ce f Q OK) as L1. pose proof (len_ae f Q OK) as L2.
  destruct ((f =? 0) || (f =? 13)); [cbn [nth color_plane pl_ends]; lia|]. destruct (((2 <=? f) && (f <=? 6)) || (f =? 14)); [cbn [nth alpha_plane pl_ends]; lia|]. destruct ((f =? 7) || (f =? 8)); [cbn [nth alpha_plane pl_ends]; lia|].
  destruct (f =? 9); [cbn [nth alpha_plane pl_ends]; lia|]. intros _ N. contradiction N. reflexivity.
Qed.
Lemma us_has_color : has_color data <-> n_color_ends Q <> 0.
Proof. unfold has_color, header_at. cbn [h_color_endpoints]. destruct us_p1 as (o & s & -> & _). reflexivity. Qed.
Lemma us_has_alpha : has_alpha data <-> n_alpha_ends Q <> 0.
Proof. unfold has_alpha, header_at. cbn [h_alpha_endpoints]. destruct us_p3 as (o & s & -> & _). reflexivity. Qed.
Lemma us_written : u_written data K.
Proof.
  destruct us_well as (W1 & W2 & W3). pose proof plain_coding as PC. split; [exact us_bytes|]. split; [exact W1|]. split; [exact W2|]. split; [exact W3|]. split; [|split; [|split]].
  - rewrite us_has_color, us_has_alpha. exact us_some.
  - unfold tables_written. cbv zeta. exists plain_sending, (sent (n_color_ends Q)), (sent (n_color_ends Q)), (sent (n_alpha_ends Q)), (sent (n_alpha_ends Q)). rewrite us_has_color, us_has_alpha. split; [exact PC|]. unfold sent.
    split; [intros N; destruct (Z.eqb_spec (n_color_ends Q) 0); [contradiction|split; exact PC]|]. split; [intros N; destruct (Z.eqb_spec (n_alpha_ends Q) 0); [contradiction|split; exact PC]|].
    split; [intros N; destruct (Z.eqb_spec (n_color_ends Q) 0); [split; reflexivity|contradiction]|]. split; [intros N; destruct (Z.eqb_spec (n_alpha_ends Q) 0); [split; reflexivity|contradiction]|].
    exact us_tables.
  - intros _. unfold u_color_written, palette_holds, header_at. cbn [h_color_endpoints h_color_selectors h_format]. rewrite us_format. destruct us_p1 as (o1 & s1 & -> & X1). destruct us_p2 as (o2 & s2 & -> & X2). cbn [p_ofs p_size p_num]. split.
    + unfold u_color_end_items in X1. destruct (is_etc f) eqn:EF.
      * exists plain_sizes, plain_sending. split; [exact PC|]. split; [|exact X1]. intros a j. unfold u_stored_contents. cbn [k_color_ends]. rewrite EF. apply Z.mod_pos_bound. lia.
      * exists plain_sizes, plain_sizes, plain_sending, plain_sending. split; [exact PC|]. split; [exact PC|exact X1].
    + exists plain_sizes, plain_sending. split; [exact PC|]. split; [|exact X2]. intros a j. exact (xor_step_range 2 ltac:(lia) (v_color_sels Q) a j).
  - intros _. unfold u_alpha_written, palette_holds, header_at. cbn [h_alpha_endpoints h_alpha_selectors]. destruct us_p3 as (o3 & s3 & -> & X3). destruct us_p4 as (o4 & s4 & -> & X4). cbn [p_ofs p_size p_num]. split.
    + exists plain_sizes, plain_sending. split; [exact PC|exact X3].
    + exists plain_sizes, plain_sending. split; [exact PC|]. split; [|exact X4]. intros a j. exact (xor_step_range 3 ltac:(lia) (v_alpha_sels Q) a j).
Qed.
Lemma us_palettes : u_ce data K = pal_ce f Q /\ u_cs data K = pal_cs f Q /\ u_ae data K = pal_ae Q /\ u_al data K = pal_al f Q.
Proof.
  pose proof u_facts as (_ & _ & _ & _ & _ & _ & _ & _ & _ & OK). unfold u_ce, u_cs, u_ae, u_al, header_at. cbn [h_color_endpoints h_color_selectors h_alpha_endpoints h_alpha_selectors h_format]. rewrite us_format.
  destruct us_p1 as (o1 & s1 & -> & _). destruct us_p2 as (o2 & s2 & -> & _). destruct us_p3 as (o3 & s3 & -> & _). destruct us_p4 as (o4 & s4 & -> & _). cbn [p_num].
  split; [exact (stored_ce f Q OK)|]. split; [exact (stored_cs f Q OK)|]. split; [exact (stored_ae f Q OK)|exact (stored_al f Q OK)].
Qed.
Lemma us_level_written level : 0 <= level < levels -> u_level_written data K level (u_stored_level f Q (P level) (W level) (H level)).
Proof.
  intros Hl. pose proof u_facts as (_ & _ & _ & _ & Hls & _ & _ & _ & _ & OK). destruct (us_level level Hl) as (HW & HH & HF & Fit). destruct (us_stream level Hl) as (S1 & S2 & S3). destruct us_palettes as (E1 & E2 & E3 & E4).
  assert (u_stream data K level (u_stored_level f Q (P level) (W level) (H level)) = u_stored_stream f Q (P level) (W level) (H level) faces) as ES.
  { unfold u_stream, u_stored_level, u_stored_stream. rewrite us_w, us_h, us_faces, us_format. destruct (has_halves f); [reflexivity|]. rewrite E1, E2, E3, E4. reflexivity. }
  unfold u_level_written. rewrite us_levels, us_faces. split; [lia|]. split; [lia|]. split; [exact S1|]. split; [exact S2|]. split; [exact HF|]. split; [|split].
  - unfold u_level_fits, u_stored_level. rewrite us_format, E1, E2, E3, E4. destruct (has_halves f) eqn:EH.
    + split; [reflexivity|]. exact (halves_sensible f Q OK (P level) _ _ faces HW HH HF Fit EH).
    + split; [exact (us_planes EH)|]. exact (plain_sensible f Q (P level) _ _ faces HW HH HF Fit EH).
  - intros kv I. rewrite ES in I. cbn [k_sizes u_stored_contents]. apply plain_coded. unfold u_stored_stream in I. destruct (has_halves f) eqn:EH.
    + exact (halves_symbols f Q OK (P level) _ _ faces HW HH HF Fit EH kv I).
    + exact (plain_symbols f Q OK (P level) _ _ faces HW HH HF Fit EH kv (us_planes EH) I).
  - rewrite ES. exact S3.
Qed.
Lemma us_block_at level g x y : 0 <= level < levels -> 0 <= g < faces -> 0 <= x < W level -> 0 <= y < H level ->
  u_block_at data K level (u_stored_level f Q (P level) (W level) (H level)) (u_place (W level) (H level) g x y) = u_draw f Q (P level g x y).
Proof.
  intros Hl Hg Hx Hy. pose proof u_facts as (_ & _ & _ & _ & _ & _ & _ & _ & _ & OK). destruct (us_level level Hl) as (HW & HH & HF & Fit). destruct us_palettes as (E1 & E2 & E3 & E4).
  unfold u_block_at, u_stored_level. destruct (has_halves f) eqn:EH; rewrite us_w, us_format, E1, E2, E3, E4.
  - exact (halves_block_ok f Q OK (P level) _ _ faces HW HH HF Fit EH g x y Hg Hx Hy).
  - exact (plain_block_ok f Q (P level) _ _ faces HW HH HF Fit EH g x y Hg Hx Hy).
Qed.
Lemma us_picture level : 0 <= level < levels ->
  u_blocks_of_level data K level (u_stored_level f Q (P level) (W level) (H level)) = u_picture f Q (P level) (W level) (H level) faces.
Proof.
  intros Hl. destruct (us_level level Hl) as (HW & HH & HF & _). unfold u_blocks_of_level. rewrite us_w, us_h, us_faces. apply visible_picture; try assumption. intros g x y. exact (us_block_at level g x y Hl).
Qed.
End File.

(** ** The size of a stored file *)
Lemma u_level_size f w h faces Q P level : 0 <= u_blocks (level_cols w level) (level_cols h level) faces ->
  zlen (u_store_level f w h faces Q P level) <= 10 * u_blocks (level_cols w level) (level_cols h level) faces + 2.
Proof.
  intros N. unfold u_store_level. set (W := level_cols w level) in *. set (H := level_cols h level) in *. set (n := u_blocks W H faces) in *.
  match goal with |- zlen (pack ?b) <= _ => destruct (pack_ok b) as (_ & -> & _) end.
  assert (0 <= zlen (u_stored_stream f Q (P level) W H faces) <= 6 * n) as L.
  { replace n with (zlen (zrange 0 n)) by (rewrite zlen_zrange; lia). unfold u_stored_stream. destruct (has_halves f).
    - apply zlen_flat_max. intros k. unfold e_block_symbols. rewrite !zlen_app, zlen_cons, zlen_app. destruct (_ =? 0); destruct (_ =? 0); destruct (f =? 12); destruct (_ =? 0); cbn; lia.
    - apply zlen_flat_max. intros k. unfold u_block_symbols. rewrite !zlen_app. assert (zlen (u_order_of f) <= 2) as LO by (unfold u_order_of; destruct (_ || _); [cbn; lia|]; destruct (_ || _); cbn; lia).
      rewrite zlen_map_any. match goal with |- context [if ?b then map ?g ?l else []] => assert (zlen (if b then map g l else []) <= 2) by (destruct b; [rewrite zlen_map_any; exact LO|cbn; lia]) end.
      match goal with |- context [if ?b then [?v] else []] => assert (zlen (if b then [v] else []) <= 1) by (destruct b; cbn; lia) end. lia. }
  pose proof (symbol_bits_max (u_stored_stream f Q (P level) W H faces)) as S.
  assert (zlen (symbol_bits (fun _ => plain_sizes) (u_stored_stream f Q (P level) W H faces)) / 8 <= 10 * n); [|lia]. apply Z.div_le_upper_bound; lia.
Qed.
Lemma u_store_size f w h faces levels Q P : 0 <= levels <= 16 -> 0 <= w -> 0 <= h -> 0 <= faces -> u_palettes_ok f Q ->
  zlen (u_store f w h faces levels Q P) <= 400000 + zsum levels (fun level => 10 * u_blocks (level_cols w level) (level_cols h level) faces + 2).
Proof.
  intros HL Hw Hh HF (H1 & H2 & H3 & H4 & _). unfold u_store, u_store_level. rewrite lay_len by lia. unfold at_level, at_alpha_sels, at_alpha_ends, at_color_sels, at_color_ends, store_head.
  destruct (u_tables_ok Q) as [_ T]. destruct (u_color_end_ok f Q ltac:(lia)) as [_ A]. destruct (u_color_sel_ok f Q ltac:(lia)) as [_ B]. destruct (u_alpha_end_ok f Q ltac:(lia)) as [_ C]. destruct (u_alpha_sel_ok f Q ltac:(lia)) as [_ D].
  match goal with |- _ + zsum levels ?g <= _ => assert (zsum levels g <= zsum levels (fun level => 10 * u_blocks (level_cols w level) (level_cols h level) faces + 2)) end; [|lia].
  apply zsum_le; [lia|]. intros i Hi. apply (u_level_size f w h faces Q P i).
  destruct (level_cols_eq w i ltac:(lia) ltac:(lia)) as [_ HW]. destruct (level_cols_eq h i ltac:(lia) ltac:(lia)) as [_ HH]. pose proof (even_up_bounds _ HW). pose proof (even_up_bounds _ HH).
  unfold u_blocks, u_rows, u_cols. apply Z.mul_nonneg_nonneg; [apply Z.mul_nonneg_nonneg|]; lia.
Qed.
