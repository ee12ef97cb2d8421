(** * The layout of stored files. *)
From Verif Require Import Base BaseLemmas ModelCrn SpecCrn SpecCrnHeader SpecCrnLevel SpecCrnFile SpecUnity SpecUnityFile SpecCrnStore SpecUnityStore
  ProofCrnBits ProofCrnHeader ProofCrnGrid ProofCrnLevel ProofCrnFile ProofCrnStore ProofCrnStoreFile ProofCrnStoreWhole.

Section Layout.
Context (f w h faces levels nce ncs nae nal : Z) (T I1 I2 I3 I4 : list item) (bits : Z -> list bool).
Notation tables := (pack_items T).
Notation cends := (pack_items I1).
Notation csels := (pack_items I2).
Notation aends := (pack_items I3).
Notation asels := (pack_items I4).
Notation lev := (fun i => pack (bits i)).
Notation data := (layout f w h faces levels nce ncs nae nal tables cends csels aends asels lev).
Notation o1 := (at_color_ends levels tables).
Notation o2 := (at_color_sels levels tables cends).
Notation o3 := (at_alpha_ends levels tables cends csels).
Notation o4 := (at_alpha_sels levels tables cends csels aends).
Notation olevel := (at_level levels tables cends csels aends asels lev).
Notation head := (layout_fields f w h faces levels nce ncs nae nal tables cends csels aends asels lev).
Notation all_fields := (head ++ map (fun i => (4, olevel i)) (zrange 0 levels)).

Lemma pack_len l : 2 <= zlen (pack l).
Proof. destruct (pack_ok l) as (_ & -> & _). pose proof (Z.div_pos (zlen l) 8 ltac:(unfold zlen; lia) ltac:(lia)). lia. Qed.
Lemma lay_head_nonneg : Forall (fun nv => 0 <= fst nv) all_fields.
Proof.
  apply Forall_app. split; [unfold layout_fields; repeat (constructor; [cbn [fst]; lia|]); constructor|].
  apply Forall_forall. intros x I. apply in_map_iff in I. destruct I as (i & <- & _). cbn [fst]. lia.
Qed.
Lemma lay_head_len : 0 <= levels -> zlen (fields all_fields) = store_head levels.
Proof. intros. rewrite zlen_fields by exact lay_head_nonneg. rewrite width_app, width_four by lia. unfold store_head. change (width head) with 70. lia. Qed.
Lemma lay_len : 0 <= levels -> zlen data = olevel levels.
Proof. intros. unfold layout. rewrite !zlen_app, lay_head_len, zlen_flat_sum by lia. unfold at_level, at_alpha_sels, at_alpha_ends, at_color_sels, at_color_ends. lia. Qed.

Definition lay_hyps : Prop :=
  0 <= f < 256 /\ 1 <= w < 65536 /\ 1 <= h < 65536 /\ 1 <= faces < 256 /\ 1 <= levels <= 16 /\
  0 <= nce <= 8192 /\ 0 <= ncs <= 8192 /\ 0 <= nae <= 8192 /\ 0 <= nal <= 8192 /\
  Forall item_ok T /\ Forall item_ok I1 /\ Forall item_ok I2 /\ Forall item_ok I3 /\ Forall item_ok I4 /\
  zlen tables < 65536 /\ zlen cends < 200000 /\ zlen csels < 200000 /\ zlen aends < 200000 /\ zlen asels < 200000 /\
  zlen data < 2 ^ 32.
Context (HY : lay_hyps).
Ltac hy := pose proof HY as (Hf & Hw & Hh & HF & HL & N1 & N2 & N3 & N4 & FT & F1 & F2 & F3 & F4 & LT & L1 & L2 & L3 & L4 & LD).

Lemma lay_sections : 2 <= zlen tables < 65536 /\ 2 <= zlen cends < 200000 /\ 2 <= zlen csels < 200000 /\ 2 <= zlen aends < 200000 /\ 2 <= zlen asels < 200000.
Proof. hy.
  pose proof (pack_len (flat_map item_bits T)). pose proof (pack_len (flat_map item_bits I1)). pose proof (pack_len (flat_map item_bits I2)). pose proof (pack_len (flat_map item_bits I3)). pose proof (pack_len (flat_map item_bits I4)).
  unfold pack_items in *. lia.
Qed.
Lemma lay_olevel i : 0 <= i <= levels -> 0 <= olevel i < 2 ^ 32.
Proof. hy.
  intros Hi. pose proof LD as L. rewrite lay_len in L by lia. pose proof lay_sections as (? & ? & ? & ? & ?).
  assert (0 <= zsum i (fun i => zlen (pack (bits i))) <= zsum levels (fun i => zlen (pack (bits i)))) by (apply zsum_mono; [intros; unfold zlen; lia|lia]).
  unfold at_level, at_alpha_sels, at_alpha_ends, at_color_sels, at_color_ends, store_head in *. lia.
Qed.
Lemma lay_small : 0 <= o1 < 2 ^ 21 /\ 0 <= o2 < 2 ^ 21 /\ 0 <= o3 < 2 ^ 21 /\ 0 <= o4 < 2 ^ 21 /\ 74 <= store_head levels < 2 ^ 16.
Proof. hy. pose proof lay_sections as (? & ? & ? & ? & ?). unfold at_alpha_sels, at_alpha_ends, at_color_sels, at_color_ends, store_head in *. lia. Qed.
Ltac field j := unfold layout; apply (number_nth all_fields j); [exact lay_head_nonneg|reflexivity|reflexivity|lia|].
Ltac small := pose proof lay_sections; pose proof lay_small; change (256 ^ 3) with (2 ^ 24); change (256 ^ 2) with 65536; change (256 ^ 1) with 256; match goal with X : zlen data < 2 ^ 32 |- _ => clear X end; lia.
Lemma lay_sig : number data 0 2 = 72 * 256 + 120. Proof. hy. field 0%nat. small. Qed.
Lemma lay_head : number data 2 2 = store_head levels. Proof. hy. field 1%nat. small. Qed.
Lemma lay_size : number data 6 4 = olevel levels. Proof. hy. field 3%nat. exact (lay_olevel levels ltac:(lia)). Qed.
Lemma lay_w : number data 12 2 = w. Proof. hy. field 5%nat. small. Qed.
Lemma lay_h : number data 14 2 = h. Proof. hy. field 6%nat. small. Qed.
Lemma lay_levels : levels_of data = levels. Proof. hy. unfold levels_of. rewrite <- number_1. field 7%nat. small. Qed.
Lemma lay_faces : number data 17 1 = faces. Proof. hy. field 8%nat. small. Qed.
Lemma lay_format : number data 18 1 = f. Proof. hy. field 9%nat. small. Qed.
Lemma lay_p1 : palette_at data 33 = mkPalette o1 (zlen cends) nce.
Proof. hy. unfold palette_at. f_equal; [field 14%nat|field 15%nat|field 16%nat]; small. Qed.
Lemma lay_p2 : palette_at data 41 = mkPalette o2 (zlen csels) ncs.
Proof. hy. unfold palette_at. f_equal; [field 17%nat|field 18%nat|field 19%nat]; small. Qed.
Lemma lay_p3 : palette_at data 49 = mkPalette o3 (zlen aends) nae.
Proof. hy. unfold palette_at. f_equal; [field 20%nat|field 21%nat|field 22%nat]; small. Qed.
Lemma lay_p4 : palette_at data 57 = mkPalette o4 (zlen asels) nal.
Proof. hy. unfold palette_at. f_equal; [field 23%nat|field 24%nat|field 25%nat]; small. Qed.
Lemma lay_tables : number data 65 2 = zlen tables /\ number data 67 3 = store_head levels.
Proof. hy. split; [field 26%nat|field 27%nat]; small. Qed.
Lemma lay_level i : 0 <= i < levels -> number data (70 + 4 * i) 4 = olevel i.
Proof. hy.
  intros Hi. unfold layout. rewrite (zrange_at i levels Hi) at 1. rewrite map_app. cbn [map]. rewrite (app_assoc head). apply number_field.
  - pose proof lay_head_nonneg as F. rewrite (zrange_at i levels Hi), map_app, app_assoc in F. apply Forall_app in F. exact (proj1 F).
  - rewrite width_app, width_four by lia. reflexivity.
  - lia.
  - exact (lay_olevel i ltac:(lia)).
Qed.
Lemma lay_holds_tables : holds data (store_head levels) (zlen tables) T.
Proof. hy. rewrite <- lay_head_len by lia. apply holds_app. exact FT. Qed.
Lemma lay_holds1 : holds data o1 (zlen cends) I1.
Proof. hy. unfold layout. replace o1 with (zlen (fields all_fields ++ tables)) by (rewrite zlen_app, lay_head_len by lia; reflexivity). rewrite app_assoc. apply holds_app. exact F1. Qed.
Lemma lay_holds2 : holds data o2 (zlen csels) I2.
Proof. hy. unfold layout. replace o2 with (zlen ((fields all_fields ++ tables) ++ cends)) by (rewrite !zlen_app, lay_head_len by lia; reflexivity). do 2 rewrite app_assoc. apply holds_app. exact F2. Qed.
Lemma lay_holds3 : holds data o3 (zlen aends) I3.
Proof. hy. unfold layout. replace o3 with (zlen (((fields all_fields ++ tables) ++ cends) ++ csels)) by (rewrite !zlen_app, lay_head_len by lia; reflexivity). do 3 rewrite app_assoc. apply holds_app. exact F3. Qed.
Lemma lay_holds4 : holds data o4 (zlen asels) I4.
Proof. hy. unfold layout. replace o4 with (zlen ((((fields all_fields ++ tables) ++ cends) ++ csels) ++ aends)) by (rewrite !zlen_app, lay_head_len by lia; reflexivity). do 4 rewrite app_assoc. apply holds_app. exact F4. Qed.
Lemma lay_section i : 0 <= i < levels -> section data (olevel i) (olevel (i + 1) - olevel i) = pack (bits i).
Proof. hy.
  intros Hi. unfold layout. rewrite (zrange_at i levels Hi) at 2. rewrite flat_map_app. cbn [flat_map].
  do 6 rewrite app_assoc. match goal with |- section (?p ++ pack (bits i) ++ _) _ _ = _ => set (pre := p) end.
  assert (zlen pre = olevel i) as <-.
  { unfold pre. rewrite !zlen_app, zlen_flat_sum, lay_head_len by lia. unfold at_level, at_alpha_sels, at_alpha_ends, at_color_sels, at_color_ends. lia. }
  replace (olevel (i + 1) - zlen pre) with (zlen (pack (bits i))); [apply section_app|].
  unfold pre. rewrite !zlen_app, zlen_flat_sum, lay_head_len by lia. unfold at_level, at_alpha_sels, at_alpha_ends, at_color_sels, at_color_ends. rewrite zsum_succ by lia. lia.
Qed.
Lemma lay_bytes : bytes data.
Proof. unfold layout. apply bytes_app; [apply bytes_fields|]. do 5 (apply bytes_app; [apply pack_ok|]). apply bytes_flat. intros i. apply pack_ok. Qed.
Lemma lay_stop level : 0 <= level < levels -> level_start data level = olevel level /\ level_stop data level = olevel (level + 1).
Proof. hy.
  intros Hl. unfold level_start, level_stop. rewrite lay_levels. split; [apply lay_level; exact Hl|].
  destruct (Z.ltb_spec (level + 1) levels); [apply lay_level; lia|]. rewrite lay_len by lia. f_equal. lia.
Qed.
Lemma lay_well_formed : 74 <= zlen data /\ header_room data <= zlen data /\ well_formed data = true.
Proof. hy.
  assert (header_room data = store_head levels) as HR by (unfold header_room; rewrite lay_levels; reflexivity).
  assert (store_head levels <= zlen data) as HD by (unfold layout; rewrite zlen_app, lay_head_len by lia; unfold zlen; lia).
  split; [unfold store_head in HD; lia|]. split; [rewrite HR; exact HD|].
  unfold well_formed. rewrite lay_head, lay_size, lay_len by lia. rewrite Z.leb_refl, andb_true_r. pose proof lay_sig as FS. rewrite number_2 in FS.
  pose proof (bytes_znth data 0 lay_bytes). pose proof (bytes_znth data 1 lay_bytes). change (0 + 1) with 1 in FS. assert (znth data 0 = 72 /\ znth data 1 = 120) as [-> ->] by lia.
  cbn [Z.eqb Pos.eqb andb]. apply Z.leb_le. unfold store_head. lia.
Qed.
Lemma lay_stream i : 0 <= i < levels -> level_start data i < level_stop data i /\ level_stop data i <= zlen data /\
  exists rest, bit_stream (section data (level_start data i) (level_stop data i - level_start data i)) = bits i ++ rest.
Proof. hy.
  intros Hi. destruct (lay_stop i Hi) as [-> ->]. rewrite (lay_section i Hi), lay_len by lia. unfold at_level. rewrite zsum_succ by lia. pose proof (pack_len (bits i)).
  assert (0 <= zsum (i + 1) (fun i => zlen (pack (bits i))) <= zsum levels (fun i => zlen (pack (bits i)))) as M by (apply zsum_mono; [intros; unfold zlen; lia|lia]).
  rewrite zsum_succ in M by lia. split; [lia|]. split; [lia|]. destruct (pack_ok (bits i)) as (_ & _ & rest & E & _). exists rest. exact E.
Qed.
End Layout.
