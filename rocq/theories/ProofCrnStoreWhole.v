(** * Stored files are files of the format. *)
From Verif Require Import Base BaseLemmas ModelCrn SpecCrn SpecCrnHeader SpecCrnLevel SpecCrnFile SpecCrnSound SpecCrnStore
  ProofCrnBits ProofCrnHeader ProofCrnGrid ProofCrnLevel ProofCrnFile ProofCrnStore ProofCrnStoreFile.

Lemma number_nth l j n v rest o : Forall (fun nv => 0 <= fst nv) l -> nth_error l j = Some (n, v) -> width (firstn j l) = o ->
  n = 1 \/ n = 2 \/ n = 3 \/ n = 4 -> 0 <= v < 256 ^ n -> number (fields l ++ rest) o n = v.
Proof.
  intros F E W Hn Hv. apply nth_error_split in E. destruct E as (a & b & -> & L). subst j. rewrite firstn_app, Nat.sub_diag, firstn_all in W. cbn [firstn] in W. rewrite app_nil_r in W.
  apply number_field; [|symmetry; exact W|exact Hn|exact Hv]. apply Forall_app in F. exact (proj1 F).
Qed.
Lemma section_app a x b : section (a ++ x ++ b) (zlen a) (zlen x) = x.
Proof.
  unfold section, zlen. rewrite !Nat2Z.id. rewrite skipn_app, skipn_all, Nat.sub_diag. cbn [app skipn]. rewrite firstn_app, firstn_all, Nat.sub_diag. cbn [firstn]. apply app_nil_r.
Qed.
Lemma holds_app a items b : Forall item_ok items -> holds (a ++ pack_items items ++ b) (zlen a) (zlen (pack_items items)) items.
Proof.
  intros F. destruct (pack_ok (flat_map item_bits items)) as (_ & L & rest & E & R). fold (pack_items items) in L, E. unfold holds.
  assert (0 <= zlen (flat_map item_bits items) / 8) by (apply Z.div_pos; [unfold zlen|]; lia).
  split; [unfold zlen; lia|]. split; [lia|]. split; [rewrite !zlen_app; unfold zlen; lia|]. split; [exact F|]. exists rest. rewrite section_app. split; [exact E|left; exact R].
Qed.
Lemma width_app a b : width (a ++ b) = width a + width b.
Proof. induction a as [|x a IH]; [reflexivity|]. cbn [app width fold_right]. fold (width (a ++ b)). fold (width a). rewrite IH. lia. Qed.
Lemma width_four (g : Z -> Z) n : 0 <= n -> width (map (fun i => (4, g i)) (zrange 0 n)) = 4 * n.
Proof.
  intros Hn. pattern n. apply natlike_ind; [reflexivity| |exact Hn]. intros k Hk IH. change (Z.succ k) with (k + 1). rewrite zrange_snoc, map_app, width_app, IH by lia. cbn [map width fold_right fst]. lia.
Qed.
Lemma zrange_at i n : 0 <= i < n -> zrange 0 n = zrange 0 i ++ i :: zrange (i + 1) n.
Proof.
  intros H. rewrite <- (zrange_cons i n) by lia. assert (forall k, i <= k -> zrange 0 k = zrange 0 i ++ zrange i k) as A; [|apply A; lia].
  intros k Hk. replace k with (i + (k - i)) by lia. assert (0 <= k - i) as Hj by lia. revert Hj. generalize (k - i). clear k Hk. intros j Hj. pattern j. apply natlike_ind; [|intros a Ha IH; replace (i + Z.succ a) with (i + a + 1) by lia|exact Hj].
  - rewrite Z.add_0_r. rewrite (zrange_nil i i) by lia. symmetry. apply app_nil_r.
  - rewrite !zrange_snoc, IH by lia. symmetry. apply app_assoc.
Qed.
Lemma zlen_flat_sum (g : Z -> list Z) n : 0 <= n -> zlen (flat_map g (zrange 0 n)) = zsum n (fun i => zlen (g i)).
Proof.
  intros Hn. pattern n. apply natlike_ind; [reflexivity| |exact Hn]. intros k Hk IH. change (Z.succ k) with (k + 1). rewrite zrange_snoc, flat_map_app, zlen_app, IH, zsum_succ by lia. cbn [flat_map]. rewrite app_nil_r. reflexivity.
Qed.
Lemma plain_item v : 0 <= v < 8192 -> item_ok (Sym plain_sizes v).
Proof. intros H. split; [exact plain_code_lengths|exact (plain_coded v H)]. Qed.
Lemma zlen_plain_items l : Forall (fun i => exists v, i = Sym plain_sizes v /\ 0 <= v < 8192) l -> Forall item_ok l /\ zlen (flat_map item_bits l) = 13 * zlen l.
Proof.
  induction 1 as [|i l (v & -> & Hv) F [IH1 IH2]]; [split; [constructor|reflexivity]|]. split; [constructor; [exact (plain_item v Hv)|exact IH1]|].
  cbn [flat_map]. rewrite zlen_app, IH2, zlen_cons, zlen_item by exact (plain_item v Hv). cbn [item_room]. rewrite znth_plain by lia. lia.
Qed.
Lemma zlen_flat_any {A} L (g : Z -> list A) n : 0 <= n -> (forall q, zlen (g q) = L) -> zlen (flat_map g (zrange 0 n)) = n * L.
Proof.
  intros Hn H. pattern n. apply natlike_ind; [reflexivity| |exact Hn]. intros k Hk IH. change (Z.succ k) with (k + 1). rewrite zrange_snoc, flat_map_app, zlen_app, IH by lia. cbn [flat_map]. rewrite app_nil_r, H. lia.
Qed.
Lemma step_mod_range b x i : 0 < b <= 256 -> 0 <= step_mod b x i < 8192.
Proof. intros H. unfold step_mod. pose proof (Z.mod_pos_bound (x i - before x i) b ltac:(lia)). lia. Qed.
Lemma color_sel_range cs i j : 0 <= pair_step 3 (color_level cs) i j < 49.
Proof. apply (pair_step_range 3); [lia|]. intros; apply color_rank_ok. Qed.
Lemma alpha_sel_range al i j : 0 <= pair_step 7 (alpha_level al) i j < 225.
Proof. apply (pair_step_range 7); [lia|]. intros; apply alpha_rank_ok. Qed.

Section File.
Context (f w h faces levels : Z) (ce cs ae al : list Z) (P : Z -> Z -> Z -> Z -> chunk).
Context (St : storable f w h faces levels ce cs ae al P).
Notation K := (stored_contents ce cs ae al).
Notation data := (store f w h faces levels ce cs ae al P).
Notation planes := (planes_of f ce cs ae al).
Notation tables := (store_tables ce ae).
Notation cends := (store_color_ends ce cs ae al).
Notation csels := (store_color_sels ce cs ae al).
Notation aends := (store_alpha_ends ce cs ae al).
Notation asels := (store_alpha_sels ce cs ae al).

(** *** Sizes *)
Lemma color_end_ok : Forall item_ok (plain_sending ++ plain_sending ++ color_end_items plain_sizes plain_sizes (k_color_ends K) (zlen ce)) /\
  zlen cends = (2 * 8274 + 78 * zlen ce) / 8 + 2.
Proof.
  destruct (zlen_plain_items (color_end_items plain_sizes plain_sizes (k_color_ends K) (zlen ce))) as [F L].
  { apply Forall_forall. intros x I. apply in_flat_map in I. destruct I as (i & _ & I). apply in_map_iff in I. destruct I as (k & <- & _). exists (k_color_ends K i k).
    split; [destruct (is_green k); reflexivity|]. apply step_mod_range. destruct (is_green k); lia. }
  split; [repeat (apply Forall_app; split); [exact plain_sending_ok|exact plain_sending_ok|exact F]|].
  unfold store_color_ends, pack_items. destruct (pack_ok (flat_map item_bits (plain_sending ++ plain_sending ++ color_end_items plain_sizes plain_sizes (k_color_ends K) (zlen ce)))) as (_ & -> & _).
  rewrite !flat_map_app, !zlen_app, !zlen_plain_sending, L. unfold color_end_items at 1. rewrite (zlen_flat_any 6); [f_equal; f_equal; lia|unfold zlen; lia|reflexivity].
Qed.
Lemma color_sel_ok : Forall item_ok (plain_sending ++ selector_items plain_sizes (k_color_sels K) (zlen cs)) /\ zlen csels = (8274 + 104 * zlen cs) / 8 + 2.
Proof.
  destruct (zlen_plain_items (selector_items plain_sizes (k_color_sels K) (zlen cs))) as [F L].
  { apply Forall_forall. intros x I. apply in_flat_map in I. destruct I as (i & _ & I). apply in_map_iff in I. destruct I as (k & <- & _). exists (k_color_sels K i k).
    split; [reflexivity|]. pose proof (color_sel_range cs i k). cbn [k_color_sels stored_contents]. lia. }
  split; [repeat (apply Forall_app; split); [exact plain_sending_ok|exact F]|].
  unfold store_color_sels, pack_items. destruct (pack_ok (flat_map item_bits (plain_sending ++ selector_items plain_sizes (k_color_sels K) (zlen cs)))) as (_ & -> & _).
  rewrite !flat_map_app, !zlen_app, !zlen_plain_sending, L. unfold selector_items at 1. rewrite (zlen_flat_any 8); [f_equal; f_equal; lia|unfold zlen; lia|reflexivity].
Qed.
Lemma alpha_end_ok : Forall item_ok (plain_sending ++ alpha_end_items plain_sizes (k_alpha_ends K) (zlen ae)) /\ zlen aends = (8274 + 26 * zlen ae) / 8 + 2.
Proof.
  destruct (zlen_plain_items (alpha_end_items plain_sizes (k_alpha_ends K) (zlen ae))) as [F L].
  { apply Forall_forall. intros x I. apply in_flat_map in I. destruct I as (i & _ & [<-|[<-|[]]]); eexists; (split; [reflexivity|]); apply step_mod_range; lia. }
  split; [repeat (apply Forall_app; split); [exact plain_sending_ok|exact F]|].
  unfold store_alpha_ends, pack_items. destruct (pack_ok (flat_map item_bits (plain_sending ++ alpha_end_items plain_sizes (k_alpha_ends K) (zlen ae)))) as (_ & -> & _).
  rewrite !flat_map_app, !zlen_app, !zlen_plain_sending, L. unfold alpha_end_items at 1. rewrite (zlen_flat_any 2); [f_equal; f_equal; lia|unfold zlen; lia|reflexivity].
Qed.
Lemma alpha_sel_ok : Forall item_ok (plain_sending ++ selector_items plain_sizes (k_alpha_sels K) (zlen al / 3)) /\ zlen asels = (8274 + 104 * (zlen al / 3)) / 8 + 2.
Proof.
  destruct (zlen_plain_items (selector_items plain_sizes (k_alpha_sels K) (zlen al / 3))) as [F L].
  { apply Forall_forall. intros x I. apply in_flat_map in I. destruct I as (i & _ & I). apply in_map_iff in I. destruct I as (k & <- & _). exists (k_alpha_sels K i k).
    split; [reflexivity|]. pose proof (alpha_sel_range al i k). cbn [k_alpha_sels stored_contents]. lia. }
  split; [repeat (apply Forall_app; split); [exact plain_sending_ok|exact F]|].
  unfold store_alpha_sels, pack_items. destruct (pack_ok (flat_map item_bits (plain_sending ++ selector_items plain_sizes (k_alpha_sels K) (zlen al / 3)))) as (_ & -> & _).
  rewrite !flat_map_app, !zlen_app, !zlen_plain_sending, L. unfold selector_items at 1. rewrite (zlen_flat_any 8); [f_equal; f_equal; lia|apply Z.div_pos; [unfold zlen|]; lia|reflexivity].
Qed.
Notation table_items := (plain_sending ++ (if zlen ce =? 0 then [] else plain_sending) ++ (if zlen ce =? 0 then [] else plain_sending) ++
              (if zlen ae =? 0 then [] else plain_sending) ++ (if zlen ae =? 0 then [] else plain_sending)).
Lemma tables_ok : Forall item_ok table_items /\ 2 <= zlen tables <= 5 * 8274 / 8 + 2.
Proof.
  pose proof plain_sending_ok as F. split.
  - repeat (apply Forall_app; split); try destruct (zlen ce =? 0); try destruct (zlen ae =? 0); try exact F; constructor.
  - unfold store_tables, pack_items. destruct (pack_ok (flat_map item_bits table_items)) as (_ & -> & _). rewrite !flat_map_app, !zlen_app.
    assert (forall b : bool, 0 <= zlen (flat_map item_bits (if b then [] else plain_sending)) <= 8274) as B by (intros []; [cbn; lia|rewrite zlen_plain_sending; lia]).
    pose proof (B (zlen ce =? 0)). pose proof (B (zlen ae =? 0)). rewrite zlen_plain_sending. split.
    + match goal with |- 2 <= ?a / 8 + 2 => pose proof (Z.div_pos a 8 ltac:(lia) ltac:(lia)) end. lia.
    + match goal with |- ?a / 8 + 2 <= _ => pose proof (Z.div_le_mono a (5 * 8274) 8 ltac:(lia) ltac:(lia)) end. lia.
Qed.
Lemma level_len level : 2 <= zlen (store_level f w h faces ce cs ae al P level).
Proof.
  unfold store_level. cbv zeta. match goal with |- context [pack ?b] => destruct (pack_ok b) as (_ & -> & _); pose proof (Z.div_pos (zlen b) 8 ltac:(unfold zlen; lia) ltac:(lia)) end. lia.
Qed.
Lemma store_facts : planes <> [] /\ 1 <= w < 65536 /\ 1 <= h < 65536 /\ 1 <= faces < 256 /\ 1 <= levels <= 16 /\
  0 <= zlen ce <= 8192 /\ 0 <= zlen cs <= 8192 /\ 0 <= zlen ae <= 8192 /\ 0 <= zlen al / 3 <= 8192 /\ 0 <= zlen al <= 3 * 8192 /\
  2 <= zlen tables < 65536 /\ 2 <= zlen cends < 100000 /\ 2 <= zlen csels < 200000 /\ 2 <= zlen aends < 100000 /\ 2 <= zlen asels < 200000.
Proof.
  destruct St as (S1 & S2 & S3 & S4 & S5 & ((S6 & _) & (S7 & _) & (S8 & _) & (S9 & SM & _)) & _).
  assert (forall l : list Z, 0 <= zlen l) as NN by (intros; unfold zlen; lia). pose proof (NN ce). pose proof (NN cs). pose proof (NN ae). pose proof (NN al).
  pose proof (Z.div_mod (zlen al) 3 ltac:(lia)). pose proof tables_ok as [_ T]. change (5 * 8274 / 8) with 5171 in T.
  destruct color_end_ok as [_ ->]. destruct color_sel_ok as [_ ->]. destruct alpha_end_ok as [_ ->]. destruct alpha_sel_ok as [_ ->].
  assert (forall a b, 0 <= a <= b -> 0 <= a / 8 <= b / 8) as B by (intros; split; [apply Z.div_pos; lia|apply Z.div_le_mono; lia]).
  pose proof (B (2 * 8274 + 78 * zlen ce) 700000 ltac:(lia)) as B1. pose proof (B (8274 + 104 * zlen cs) 1000000 ltac:(lia)) as B2. pose proof (B (8274 + 26 * zlen ae) 700000 ltac:(lia)) as B3. pose proof (B (8274 + 104 * (zlen al / 3)) 1000000 ltac:(lia)) as B4.
  change (700000 / 8) with 87500 in *. change (1000000 / 8) with 125000 in *. clear B St.
  split; [exact S1|]. repeat split; lia.
Qed.
Notation olevel := (o_level f w h faces levels ce cs ae al P).
Notation head := (store_fields f w h faces levels ce cs ae al P).
Notation all_fields := (head ++ map (fun i => (4, olevel i)) (zrange 0 levels)).
Lemma head_nonneg : Forall (fun nv => 0 <= fst nv) all_fields.
Proof.
  apply Forall_app. split; [unfold store_fields; repeat (constructor; [cbn [fst]; lia|]); constructor|].
  apply Forall_forall. intros x I. apply in_map_iff in I. destruct I as (i & <- & _). cbn [fst]. lia.
Qed.
Lemma head_len0 : 0 <= levels -> zlen (fields all_fields) = store_head levels.
Proof. intros. rewrite zlen_fields by exact head_nonneg. rewrite width_app, width_four by lia. unfold store_head. change (width head) with 70. lia. Qed.
Lemma head_len : zlen (fields all_fields) = store_head levels.
Proof. pose proof store_facts as (_ & _ & _ & _ & ? & _). apply head_len0. lia. Qed.
Lemma data_len0 : 0 <= levels -> zlen data = olevel levels.
Proof. intros. unfold store. rewrite !zlen_app, head_len0, zlen_flat_sum by lia. unfold o_level, o_alpha_sels, o_alpha_ends, o_color_sels, o_color_ends. lia. Qed.
Lemma data_len : zlen data = olevel levels.
Proof. pose proof store_facts as (_ & _ & _ & _ & ? & _). apply data_len0. lia. Qed.
Lemma zsum_mono g a b : (forall i, 0 <= g i) -> 0 <= a <= b -> 0 <= zsum a g <= zsum b g.
Proof.
  intros G Hab. assert (forall n, 0 <= n -> 0 <= zsum n g) as N.
  { intros n Hn. pattern n. apply natlike_ind; [rewrite zsum_0; lia| |exact Hn]. intros k Hk IH. change (Z.succ k) with (k + 1). rewrite zsum_succ by lia. specialize (G k). lia. }
  split; [apply N; lia|]. replace b with (a + (b - a)) by lia. assert (0 <= b - a) as Hc by lia. revert Hc. generalize (b - a). intros c Hc. pattern c. apply natlike_ind; [rewrite Z.add_0_r; lia| |exact Hc].
  intros k Hk IH. replace (a + Z.succ k) with (a + k + 1) by lia. rewrite zsum_succ by lia. specialize (G (a + k)). lia.
Qed.
Lemma olevel_range i : 0 <= i <= levels -> 0 <= olevel i < 2 ^ 32.
Proof.
  intros Hi. assert (zlen data < 2 ^ 32) as L by apply St. rewrite data_len in L. pose proof store_facts as (_ & _ & _ & _ & ? & _ & _ & _ & _ & _ & ? & ? & ? & ? & ?).
  assert (0 <= zsum i (fun i => zlen (store_level f w h faces ce cs ae al P i)) <= zsum levels (fun i => zlen (store_level f w h faces ce cs ae al P i))) by (apply zsum_mono; [intros; unfold zlen; lia|lia]).
  unfold o_level, o_alpha_sels, o_alpha_ends, o_color_sels, o_color_ends, store_head in *. lia.
Qed.
Ltac field j := unfold store; apply (number_nth all_fields j); [exact head_nonneg|reflexivity|reflexivity|lia|].
Lemma f_sig : number data 0 2 = 72 * 256 + 120. Proof. field 0%nat. lia. Qed.
Lemma f_head : number data 2 2 = store_head levels. Proof. field 1%nat. pose proof store_facts. unfold store_head. change (256 ^ 2) with 65536. lia. Qed.
Lemma f_size : number data 6 4 = olevel levels. Proof. field 3%nat. pose proof store_facts. exact (olevel_range levels ltac:(lia)). Qed.
Lemma f_w : number data 12 2 = w. Proof. field 5%nat. pose proof store_facts. change (256 ^ 2) with 65536. lia. Qed.
Lemma f_h : number data 14 2 = h. Proof. field 6%nat. pose proof store_facts. change (256 ^ 2) with 65536. lia. Qed.
Lemma f_levels : levels_of data = levels.
Proof. unfold levels_of. rewrite <- number_1. field 7%nat. pose proof store_facts. change (256 ^ 1) with 256. lia. Qed.
Lemma f_faces : number data 17 1 = faces. Proof. field 8%nat. pose proof store_facts. change (256 ^ 1) with 256. lia. Qed.
Lemma f_range : 0 <= f <= 9.
Proof.
  pose proof store_facts as (N & _). unfold planes_of in N. destruct (Z.eqb_spec f 0); [lia|]. destruct ((2 <=? f) && (f <=? 6)) eqn:E1; [apply andb_prop in E1; lia|].
  destruct ((f =? 7) || (f =? 8)) eqn:E2; [apply orb_prop in E2; lia|]. destruct (Z.eqb_spec f 9); [lia|]. contradiction N. reflexivity.
Qed.
Lemma f_format : number data 18 1 = f. Proof. field 9%nat. pose proof f_range. change (256 ^ 1) with 256. lia. Qed.
Lemma offsets_small : 0 <= store_head levels + zlen tables < 2 ^ 20 /\ 0 <= o_color_ends levels ce ae < 2 ^ 20 /\ 0 <= o_color_sels levels ce cs ae al < 2 ^ 20 /\ 0 <= o_alpha_ends levels ce cs ae al < 2 ^ 20 /\ 0 <= o_alpha_sels levels ce cs ae al < 2 ^ 20.
Proof.
  pose proof store_facts as (_ & _ & _ & _ & ? & _ & _ & _ & _ & _ & ? & ? & ? & ? & ?). unfold o_alpha_sels, o_alpha_ends, o_color_sels, o_color_ends, store_head in *. lia.
Qed.
Ltac small := pose proof store_facts; pose proof offsets_small; change (256 ^ 3) with (2 ^ 24); change (256 ^ 2) with 65536; unfold store_head in *; lia.
Lemma f_ce : palette_at data 33 = mkPalette (o_color_ends levels ce ae) (zlen cends) (zlen ce).
Proof. unfold palette_at. f_equal; [field 14%nat|field 15%nat|field 16%nat]; small. Qed.
Lemma f_cs : palette_at data 41 = mkPalette (o_color_sels levels ce cs ae al) (zlen csels) (zlen cs).
Proof. unfold palette_at. f_equal; [field 17%nat|field 18%nat|field 19%nat]; small. Qed.
Lemma f_ae : palette_at data 49 = mkPalette (o_alpha_ends levels ce cs ae al) (zlen aends) (zlen ae).
Proof. unfold palette_at. f_equal; [field 20%nat|field 21%nat|field 22%nat]; small. Qed.
Lemma f_al : palette_at data 57 = mkPalette (o_alpha_sels levels ce cs ae al) (zlen asels) (zlen al / 3).
Proof. unfold palette_at. f_equal; [field 23%nat|field 24%nat|field 25%nat]; small. Qed.
Lemma f_tables : number data 65 2 = zlen tables /\ number data 67 3 = store_head levels.
Proof. split; [field 26%nat|field 27%nat]; small. Qed.
Lemma f_level i : 0 <= i < levels -> number data (70 + 4 * i) 4 = olevel i.
Proof.
  intros Hi. unfold store. rewrite (zrange_at i levels Hi) at 1. rewrite map_app. cbn [map]. rewrite (app_assoc head). apply number_field.
  - pose proof head_nonneg as F. rewrite (zrange_at i levels Hi), map_app, app_assoc in F. apply Forall_app in F. exact (proj1 F).
  - rewrite width_app, width_four by lia. reflexivity.
  - lia.
  - exact (olevel_range i ltac:(lia)).
Qed.
(** *** Sections *)
Notation lev := (store_level f w h faces ce cs ae al P).
Notation all_levels := (flat_map lev (zrange 0 levels)).
Lemma h_tables : holds data (store_head levels) (zlen tables) table_items.
Proof. rewrite <- head_len. apply holds_app. apply tables_ok. Qed.
Lemma h_ce : holds data (o_color_ends levels ce ae) (zlen cends) (plain_sending ++ plain_sending ++ color_end_items plain_sizes plain_sizes (k_color_ends K) (zlen ce)).
Proof.
  unfold store. replace (o_color_ends levels ce ae) with (zlen (fields all_fields ++ tables)) by (rewrite zlen_app, head_len; reflexivity). rewrite app_assoc. apply holds_app. apply color_end_ok.
Qed.
Lemma h_cs : holds data (o_color_sels levels ce cs ae al) (zlen csels) (plain_sending ++ selector_items plain_sizes (k_color_sels K) (zlen cs)).
Proof.
  unfold store. replace (o_color_sels levels ce cs ae al) with (zlen ((fields all_fields ++ tables) ++ cends)) by (rewrite !zlen_app, head_len; reflexivity). do 2 rewrite app_assoc. apply holds_app. apply color_sel_ok.
Qed.
Lemma h_ae : holds data (o_alpha_ends levels ce cs ae al) (zlen aends) (plain_sending ++ alpha_end_items plain_sizes (k_alpha_ends K) (zlen ae)).
Proof.
  unfold store. replace (o_alpha_ends levels ce cs ae al) with (zlen (((fields all_fields ++ tables) ++ cends) ++ csels)) by (rewrite !zlen_app, head_len; reflexivity). do 3 rewrite app_assoc. apply holds_app. apply alpha_end_ok.
Qed.
Lemma h_al : holds data (o_alpha_sels levels ce cs ae al) (zlen asels) (plain_sending ++ selector_items plain_sizes (k_alpha_sels K) (zlen al / 3)).
Proof.
  unfold store. replace (o_alpha_sels levels ce cs ae al) with (zlen ((((fields all_fields ++ tables) ++ cends) ++ csels) ++ aends)) by (rewrite !zlen_app, head_len; reflexivity). do 4 rewrite app_assoc. apply holds_app. apply alpha_sel_ok.
Qed.
Lemma level_section i : 0 <= i < levels -> section data (olevel i) (olevel (i + 1) - olevel i) = lev i.
Proof.
  intros Hi. unfold store. rewrite (zrange_at i levels Hi) at 2. rewrite flat_map_app. cbn [flat_map].
  do 6 rewrite app_assoc. match goal with |- section (?p ++ lev i ++ _) _ _ = _ => set (pre := p) end.
  assert (zlen pre = olevel i) as <-.
  { unfold pre. rewrite !zlen_app, zlen_flat_sum, head_len by lia. unfold o_level, o_alpha_sels, o_alpha_ends, o_color_sels, o_color_ends. lia. }
  replace (olevel (i + 1) - zlen pre) with (zlen (lev i)); [apply section_app|].
  unfold pre. rewrite !zlen_app, zlen_flat_sum, head_len by lia. unfold o_level, o_alpha_sels, o_alpha_ends, o_color_sels, o_color_ends. rewrite zsum_succ by lia. lia.
Qed.
Lemma bytes_flat (g : Z -> list Z) l : (forall i, bytes (g i)) -> bytes (flat_map g l).
Proof. intros G. induction l as [|x l IH]; [constructor|]. cbn [flat_map]. apply bytes_app; [apply G|exact IH]. Qed.
Lemma data_bytes : bytes data.
Proof.
  unfold store. apply bytes_app; [apply bytes_fields|]. do 5 (apply bytes_app; [apply pack_ok|]). apply bytes_flat. intros i. apply pack_ok.
Qed.
(** *** The file *)
Lemma level_facts level : 0 <= level < levels -> 1 <= level_cols w level /\ 1 <= level_cols h level /\ 1 <= faces /\
  all_fit planes (P level) (level_cols w level) (level_cols h level) faces.
Proof.
  intros Hl. pose proof store_facts as (_ & ? & ? & ? & _). destruct (level_cols_eq w level ltac:(lia) ltac:(lia)) as [_ HW]. destruct (level_cols_eq h level ltac:(lia) ltac:(lia)) as [_ HH].
  split; [exact HW|]. split; [exact HH|]. split; [lia|]. apply St. exact Hl.
Qed.
Lemma used_planes p : 0 <= p < zlen planes -> 0 < pl_ends (plane_at planes p) <= 8192 /\ 0 < pl_sels (plane_at planes p) <= 8192.
Proof.
  intros Hp. pose proof store_facts as (_ & _ & _ & _ & SL & C1 & C2 & C3 & C4 & _). destruct (level_facts 0 ltac:(lia)) as (HW & HH & HF & Fit).
  destruct (planes_pos planes (P 0) _ _ _ HW HH HF Fit p Hp) as [A B]. clear Fit.
  enough (pl_ends (plane_at planes p) <= 8192 /\ pl_sels (plane_at planes p) <= 8192) by lia.
  assert (forall q, In q planes -> pl_ends q <= 8192 /\ pl_sels q <= 8192) as Q; [|apply Q; apply nth_In; unfold zlen in Hp; lia].
  intros q I. unfold planes_of in I. destruct (f =? 0); [destruct I as [<-|[]]; cbn; lia|]. destruct ((2 <=? f) && (f <=? 6)); [destruct I as [<-|[<-|[]]]; cbn [color_plane alpha_plane pl_ends pl_sels]; lia|].
  destruct ((f =? 7) || (f =? 8)); [destruct I as [<-|[<-|[]]]; cbn [color_plane alpha_plane pl_ends pl_sels]; lia|]. destruct (f =? 9); [destruct I as [<-|[]]; cbn [color_plane alpha_plane pl_ends pl_sels]; lia|destruct I].
Qed.
Lemma has_color_eq : has_color data <-> zlen ce <> 0.
Proof. unfold has_color, header_at. cbn [h_color_endpoints]. rewrite f_ce. reflexivity. Qed.
Lemma has_alpha_eq : has_alpha data <-> zlen ae <> 0.
Proof. unfold has_alpha, header_at. cbn [h_alpha_endpoints]. rewrite f_ae. reflexivity. Qed.
Lemma some_palette : zlen ce <> 0 \/ zlen ae <> 0.
Proof.
  pose proof store_facts as (N & _). assert (0 < zlen planes) as Z0. { clear - N. destruct planes; [contradiction N; reflexivity|]. rewrite zlen_cons. unfold zlen. lia. }
  destruct (used_planes 0 ltac:(lia)) as [A _]. revert A. unfold plane_at. change (Z.to_nat 0) with 0%nat. unfold planes_of.
  destruct (f =? 0); [cbn; lia|]. destruct ((2 <=? f) && (f <=? 6)); [cbn; lia|]. destruct ((f =? 7) || (f =? 8)); [cbn; lia|]. destruct (f =? 9); cbn; lia.
Qed.
Lemma stored_planes : file_planes data K = planes.
Proof.
  destruct St as (_ & _ & _ & _ & _ & ((_ & S6) & (_ & S7) & (_ & S8) & (_ & SM & S9)) & _).
  unfold file_planes, header_at. cbn [h_color_endpoints h_color_selectors h_alpha_endpoints h_alpha_selectors h_format]. rewrite f_ce, f_cs, f_ae, f_al, f_format. cbn [p_num].
  rewrite stored_color_ends, stored_color_sels, stored_alpha_ends, stored_alpha_sels by assumption.
  assert (forall p, 0 <= p < zlen planes -> 0 < pl_ends (plane_at planes p)) as U by (intros p Hp; apply used_planes; exact Hp). revert U. clear. unfold planes_of.
  destruct (f =? 0); [intros U; specialize (U 0 ltac:(cbn; lia)); unfold plane_at in U; change (Z.to_nat 0) with 0%nat in *; change (Z.to_nat 1) with 1%nat in *; cbn [nth color_plane alpha_plane pl_ends] in *; destruct (Z.eqb_spec (zlen ce) 0); [lia|reflexivity]|].
  destruct ((2 <=? f) && (f <=? 6)); [intros U; pose proof (U 0 ltac:(cbn; lia)) as U0; specialize (U 1 ltac:(cbn; lia)); unfold plane_at in U0; unfold plane_at in U; change (Z.to_nat 0) with 0%nat in *; change (Z.to_nat 1) with 1%nat in *; cbn [nth color_plane alpha_plane pl_ends] in *; destruct (Z.eqb_spec (zlen ce) 0); [lia|]; destruct (Z.eqb_spec (zlen ae) 0); [lia|reflexivity]|].
  destruct ((f =? 7) || (f =? 8)); [intros U; specialize (U 0 ltac:(cbn; lia)); unfold plane_at in U; change (Z.to_nat 0) with 0%nat in *; change (Z.to_nat 1) with 1%nat in *; cbn [nth color_plane alpha_plane pl_ends] in *; destruct (Z.eqb_spec (zlen ae) 0); [lia|reflexivity]|].
  destruct (f =? 9); [intros U; specialize (U 0 ltac:(cbn; lia)); unfold plane_at in U; change (Z.to_nat 0) with 0%nat in *; change (Z.to_nat 1) with 1%nat in *; cbn [nth color_plane alpha_plane pl_ends] in *; destruct (Z.eqb_spec (zlen ae) 0); [lia|reflexivity]|reflexivity].
Qed.
Lemma store_written : written data K.
Proof.
  pose proof store_facts as (_ & Hw & Hh & HF & HL & _). pose proof plain_coding as PC.
  assert (header_room data = store_head levels) as HR by (unfold header_room; rewrite f_levels; reflexivity).
  assert (store_head levels <= zlen data) as HD by (unfold store; rewrite zlen_app, head_len; unfold zlen; lia).
  split; [exact data_bytes|]. split; [unfold store_head in HD; lia|]. split; [rewrite HR; exact HD|]. split; [|split; [|split; [|split]]].
  - unfold well_formed. rewrite f_head, f_size, data_len. rewrite Z.leb_refl, andb_true_r. pose proof f_sig as FS. rewrite number_2 in FS.
    pose proof (bytes_znth data 0 data_bytes). pose proof (bytes_znth data 1 data_bytes). change (0 + 1) with 1 in FS. assert (znth data 0 = 72 /\ znth data 1 = 120) as [-> ->] by lia.
    cbn [Z.eqb Pos.eqb andb]. apply Z.leb_le. unfold store_head. lia.
  - rewrite has_color_eq, has_alpha_eq. exact some_palette.
  - unfold tables_written. cbv zeta. exists plain_sending, (if zlen ce =? 0 then [] else plain_sending), (if zlen ce =? 0 then [] else plain_sending),
      (if zlen ae =? 0 then [] else plain_sending), (if zlen ae =? 0 then [] else plain_sending). rewrite !has_color_eq, !has_alpha_eq. split; [exact PC|].
    split; [intros N; destruct (Z.eqb_spec (zlen ce) 0); [contradiction|split; exact PC]|]. split; [intros N; destruct (Z.eqb_spec (zlen ae) 0); [contradiction|split; exact PC]|].
    split; [intros N; destruct (Z.eqb_spec (zlen ce) 0); [split; reflexivity|contradiction]|]. split; [intros N; destruct (Z.eqb_spec (zlen ae) 0); [split; reflexivity|contradiction]|].
    unfold header_at. cbn [h_tables_ofs h_tables_size]. destruct f_tables as [-> ->]. exact h_tables.
  - intros _. unfold color_written, palette_holds, header_at. cbn [h_color_endpoints h_color_selectors]. rewrite f_ce, f_cs. cbn [p_ofs p_size p_num]. split.
    + exists plain_sizes, plain_sizes, plain_sending, plain_sending. split; [exact PC|]. split; [exact PC|exact h_ce].
    + exists plain_sizes, plain_sending. split; [exact PC|]. split; [exact (color_sel_range cs)|exact h_cs].
  - intros _. unfold alpha_written, palette_holds, header_at. cbn [h_alpha_endpoints h_alpha_selectors]. rewrite f_ae, f_al. cbn [p_ofs p_size p_num]. split.
    + exists plain_sizes, plain_sending. split; [exact PC|exact h_ae].
    + exists plain_sizes, plain_sending. split; [exact PC|]. split; [exact (alpha_sel_range al)|exact h_al].
Qed.
Lemma store_stop level : 0 <= level < levels -> level_start data level = olevel level /\ level_stop data level = olevel (level + 1).
Proof.
  intros Hl. unfold level_start, level_stop. rewrite f_levels. split; [apply f_level; exact Hl|].
  destruct (Z.ltb_spec (level + 1) levels); [apply f_level; lia|]. rewrite data_len. f_equal. lia.
Qed.
End File.

(** ** The size of a stored file *)
Lemma plain_code_max s : 0 <= zlen (code plain_sizes s) <= 13.
Proof.
  unfold code, bits_of, zlen. rewrite map_length. fold (zlen (zrange 0 (znth plain_sizes s))). rewrite zlen_zrange.
  assert (znth plain_sizes s = 13 \/ znth plain_sizes s = 0) as [-> | ->]; [|lia|lia]. unfold znth, plain_sizes.
  destruct (nth_in_or_default (Z.to_nat s) (repeat 13 (Z.to_nat 8192)) 0) as [I|E]; [left; exact (repeat_spec _ _ _ I)|right; exact E].
Qed.
Lemma symbol_bits_max l : 0 <= zlen (symbol_bits (fun _ => plain_sizes) l) <= 13 * zlen l.
Proof.
  induction l as [|x l IH]; [cbn; lia|]. unfold symbol_bits in *. cbn [flat_map]. rewrite zlen_app, zlen_cons. pose proof (plain_code_max (snd x)). lia.
Qed.
Lemma zlen_flat_max {A B} (g : A -> list B) l c : (forall x, zlen (g x) <= c) -> 0 <= zlen (flat_map g l) <= c * zlen l.
Proof. intros G. induction l as [|x l IH]; [cbn; lia|]. cbn [flat_map]. rewrite zlen_app, zlen_cons. pose proof (G x). unfold zlen in *. lia. Qed.
Lemma zlen_map_any {A B} (g : A -> B) l : zlen (map g l) = zlen l.
Proof. unfold zlen. rewrite map_length. reflexivity. Qed.
Lemma tiles_max e : 0 <= e < 8 -> num_tiles e <= 4.
Proof. intros He. destruct (eight_values e He) as [E|[E|[E|[E|[E|[E|[E|E]]]]]]]; rewrite E; vm_compute; congruence. Qed.
Lemma level_size_max f w h faces ce cs ae al P level : 0 <= num_chunks (level_cols w level) (level_cols h level) faces ->
  zlen (store_level f w h faces ce cs ae al P level) <= 28 * num_chunks (level_cols w level) (level_cols h level) faces + 2.
Proof.
  intros N. unfold store_level. cbv zeta. set (W := level_cols w level) in *. set (H := level_cols h level) in *. unfold store_planes. set (pl := planes_of f ce cs ae al). set (D := stored_level pl (P level) W H).
  destruct (pack_ok (symbol_bits (fun _ => plain_sizes) (level_symbols pl D W H faces))) as (_ & -> & _).
  assert (zlen pl <= 2) as LP. { unfold pl, planes_of. destruct (f =? 0); [cbn; lia|]. destruct ((2 <=? f) && (f <=? 6)); [cbn; lia|]. destruct ((f =? 7) || (f =? 8)); [cbn; lia|]. destruct (f =? 9); cbn; lia. }
  assert (0 <= zlen (level_symbols pl D W H faces) <= 17 * zlen (zrange 0 (num_chunks W H faces))) as L.
  { apply zlen_flat_max. intros n. unfold chunk_symbols. rewrite !zlen_app.
    assert (zlen (if n mod 3 =? 0 then [(Chunks, group D (n / 3))] else []) <= 1) as A1 by (destruct (n mod 3 =? 0); cbn; lia).
    assert (zlen (plane_nos pl) <= 2) as A2 by (unfold plane_nos; rewrite zlen_zrange; lia).
    match goal with |- _ + (zlen (flat_map ?g ?l) + _) <= _ => assert (zlen (flat_map g l) <= 4 * zlen l) as A3 end.
    { apply zlen_flat_max. intros p. rewrite zlen_map_any, zlen_zrange. pose proof (tiles_max (cut_of D n) (Z.mod_pos_bound _ 8 ltac:(lia))). lia. }
    match goal with |- _ + (_ + zlen (flat_map ?g ?l)) <= _ => assert (zlen (flat_map g l) <= 2 * zlen l) as A4 end.
    { apply zlen_flat_max. intros k. rewrite zlen_map_any. exact A2. }
    change (zlen (zrange 0 4)) with 4 in A4. lia. }
  rewrite zlen_zrange in L. pose proof (symbol_bits_max (level_symbols pl D W H faces)) as S.
  assert (zlen (symbol_bits (fun _ => plain_sizes) (level_symbols pl D W H faces)) / 8 <= 28 * num_chunks W H faces); [|lia]. apply Z.div_le_upper_bound; lia.
Qed.
Lemma zsum_le n g g' : 0 <= n -> (forall i, 0 <= i < n -> g i <= g' i) -> zsum n g <= zsum n g'.
Proof.
  intros Hn. pattern n. apply natlike_ind; [intros; rewrite !zsum_0; lia| |exact Hn]. intros k Hk IH G. change (Z.succ k) with (k + 1) in *. rewrite !zsum_succ by lia. specialize (IH ltac:(intros; apply G; lia)). specialize (G k ltac:(lia)). lia.
Qed.
Lemma store_size f w h faces levels ce cs ae al P : 0 <= levels <= 16 -> 0 <= w -> 0 <= h -> 0 <= faces ->
  zlen ce <= 8192 -> zlen cs <= 8192 -> zlen ae <= 8192 -> zlen al <= 3 * 8192 ->
  zlen (store f w h faces levels ce cs ae al P) <= 600000 + zsum levels (fun level => 28 * num_chunks (level_cols w level) (level_cols h level) faces + 2).
Proof.
  intros HL Hw Hh HF H1 H2 H3 H4. rewrite data_len0 by lia. unfold o_level, o_alpha_sels, o_alpha_ends, o_color_sels, o_color_ends, store_head.
  pose proof (tables_ok ce ae) as [_ T]. change (5 * 8274 / 8) with 5171 in T.
  destruct (color_end_ok ce cs ae al) as [_ ->]. destruct (color_sel_ok ce cs ae al) as [_ ->]. destruct (alpha_end_ok ce cs ae al) as [_ ->]. destruct (alpha_sel_ok ce cs ae al) as [_ ->].
  assert (forall a b, a <= b -> a / 8 <= b / 8) as B by (intros; apply Z.div_le_mono; lia). assert (zlen al / 3 <= 8192) by (apply Z.div_le_upper_bound; lia).
  pose proof (B (2 * 8274 + 78 * zlen ce) 700000 ltac:(lia)) as B1. pose proof (B (8274 + 104 * zlen cs) 1000000 ltac:(lia)) as B2. pose proof (B (8274 + 26 * zlen ae) 700000 ltac:(lia)) as B3. pose proof (B (8274 + 104 * (zlen al / 3)) 1000000 ltac:(lia)) as B4.
  change (700000 / 8) with 87500 in *. change (1000000 / 8) with 125000 in *.
  assert (zsum levels (fun i => zlen (store_level f w h faces ce cs ae al P i)) <= zsum levels (fun level => 28 * num_chunks (level_cols w level) (level_cols h level) faces + 2)); [|lia].
  apply zsum_le; [lia|]. intros i Hi. apply level_size_max. destruct (level_cols_eq w i ltac:(lia) ltac:(lia)) as [_ HW]. destruct (level_cols_eq h i ltac:(lia) ltac:(lia)) as [_ HH].
  unfold num_chunks, chunk_cols, chunk_rows. pose proof (Z.div_pos (level_cols w i + 1) 2 ltac:(lia) ltac:(lia)). pose proof (Z.div_pos (level_cols h i + 1) 2 ltac:(lia) ltac:(lia)). apply Z.mul_nonneg_nonneg; [apply Z.mul_nonneg_nonneg|]; lia.
Qed.
