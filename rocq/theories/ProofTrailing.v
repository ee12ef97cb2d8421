(** * Bytes behind the end of a crunch file *)
From Verif Require Import Base BaseLemmas ModelColor ModelCrn ModelCrunch ModelUnity
  SpecCrn SpecCrnHeader SpecCrnLevel SpecCrnFile SpecUnity SpecUnityFile PropCrunch PropUnity.

Section Append.
Context (data e : list Z).
Hypothesis HR : header_room data <= zlen data.
Hypothesis HM : 74 <= zlen data.

Lemma znth_more i : 0 <= i < zlen data -> znth (data ++ e) i = znth data i.
Proof. intros H. apply znth_app1. exact H. Qed.
Lemma number_more o n : 0 <= o -> o + n <= zlen data -> number (data ++ e) o n = number data o n.
Proof.
  intros Ho Hn. unfold number.
  assert (forall k, In k (zrange 0 n) -> 0 <= k < n) as R by (intros k I; apply in_zrange in I; lia).
  revert R. generalize (zrange 0 n). intros l R. induction l as [|k l IH]; [reflexivity|]. cbn [fold_right].
  rewrite IH by (intros j J; apply R; right; exact J). pose proof (R k (or_introl eq_refl)).
  rewrite znth_more by lia. reflexivity.
Qed.
Lemma levels_more : levels_of (data ++ e) = levels_of data.
Proof. unfold levels_of. apply znth_more. lia. Qed.
Lemma room_more : header_room (data ++ e) = header_room data.
Proof. unfold header_room. rewrite levels_more. reflexivity. Qed.
Lemma palette_more o : 0 <= o -> o + 8 <= 74 -> palette_at (data ++ e) o = palette_at data o.
Proof. intros H1 H2. unfold palette_at. rewrite !number_more by lia. reflexivity. Qed.
Lemma header_more : header_at (data ++ e) = header_at data.
Proof.
  unfold header_at. rewrite !levels_more, !number_more by lia. rewrite !palette_more by lia. f_equal.
  apply map_ext_in. intros i I. apply in_zrange in I. unfold header_room in HR. rewrite number_more by lia. reflexivity.
Qed.
Lemma section_more o s : 0 <= o -> 0 <= s -> o + s <= zlen data -> section (data ++ e) o s = section data o s.
Proof.
  intros H1 H2 H3. unfold section. unfold zlen in *.
  rewrite skipn_app, firstn_app, skipn_length.
  replace (Z.to_nat s - (length data - Z.to_nat o))%nat with 0%nat by lia. cbn [firstn]. apply app_nil_r.
Qed.
Lemma holds_more o s items : holds data o s items -> holds (data ++ e) o s items.
Proof.
  intros (H1 & H2 & H3 & H4 & rest & H5 & H6). pose proof (zlen_nonneg e) as Le.
  assert (zlen (data ++ e) = zlen data + zlen e) as L by apply zlen_app.
  split; [lia|]. split; [lia|]. split; [lia|]. split; [exact H4|]. exists rest.
  rewrite section_more by lia. split; [exact H5|]. lia.
Qed.
End Append.

Lemma tables_more data e k : header_room data <= zlen data -> 74 <= zlen data -> tables_written data k -> tables_written (data ++ e) k.
Proof.
  intros HR HM (i & ie & is_ & je & js & H1 & H2 & H3 & H4 & H5 & H6).
  exists i, ie, is_, je, js. unfold has_color, has_alpha in *. rewrite header_more by assumption.
  repeat (split; [assumption|]). apply holds_more; assumption.
Qed.
Lemma color_more data e k : header_room data <= zlen data -> 74 <= zlen data -> color_written data k -> color_written (data ++ e) k.
Proof.
  intros HR HM ((s5 & s6 & i5 & i6 & H1 & H2 & H3) & s & i & H4 & H5 & H6). unfold color_written, palette_holds in *.
  rewrite header_more by assumption. split.
  - exists s5, s6, i5, i6. split; [exact H1|]. split; [exact H2|]. apply holds_more; assumption.
  - exists s, i. split; [exact H4|]. split; [exact H5|]. apply holds_more; assumption.
Qed.
Lemma alpha_more data e k : header_room data <= zlen data -> 74 <= zlen data -> alpha_written data k -> alpha_written (data ++ e) k.
Proof.
  intros HR HM ((s8 & i8 & H1 & H3) & s & i & H4 & H5 & H6). unfold alpha_written, palette_holds in *.
  rewrite header_more by assumption. split.
  - exists s8, i8. split; [exact H1|]. apply holds_more; assumption.
  - exists s, i. split; [exact H4|]. split; [exact H5|]. apply holds_more; assumption.
Qed.
Lemma u_color_more data e k : header_room data <= zlen data -> 74 <= zlen data -> u_color_written data k -> u_color_written (data ++ e) k.
Proof.
  intros HR HM (H & s & i & H4 & H5 & H6). unfold u_color_written, palette_holds in *.
  rewrite header_more by assumption. split.
  - destruct (is_etc (h_format (header_at data))).
    + destruct H as (s1 & i1 & A & B & C). exists s1, i1. split; [exact A|]. split; [exact B|]. apply holds_more; assumption.
    + destruct H as (s5 & s6 & i5 & i6 & A & B & C). exists s5, s6, i5, i6. split; [exact A|]. split; [exact B|]. apply holds_more; assumption.
  - exists s, i. split; [exact H4|]. split; [exact H5|]. apply holds_more; assumption.
Qed.
Lemma u_alpha_more data e k : header_room data <= zlen data -> 74 <= zlen data -> u_alpha_written data k -> u_alpha_written (data ++ e) k.
Proof.
  intros HR HM ((s8 & i8 & H1 & H3) & s & i & H4 & H5 & H6). unfold u_alpha_written, palette_holds in *.
  rewrite header_more by assumption. split.
  - exists s8, i8. split; [exact H1|]. apply holds_more; assumption.
  - exists s, i. split; [exact H4|]. split; [exact H5|]. apply holds_more; assumption.
Qed.
Lemma well_formed_more data e : 74 <= zlen data -> well_formed data = true -> well_formed (data ++ e) = true.
Proof.
  intros HM H. unfold well_formed in *. rewrite !andb_true_iff, Z.leb_le, Z.leb_le in *.
  rewrite !znth_more, !number_more by lia. rewrite zlen_app. pose proof (zlen_nonneg e). intuition lia.
Qed.
Lemma bytes_more (data e : list Z) : bytes data -> bytes e -> bytes (data ++ e).
Proof. intros. apply Forall_app. auto. Qed.

Lemma written_more data e k : bytes e -> written data k -> written (data ++ e) k.
Proof.
  intros He (H1 & H2 & H3 & H4 & H5 & H6 & H7 & H8). pose proof (zlen_nonneg e) as Le.
  split; [apply bytes_more; assumption|]. split; [rewrite zlen_app; lia|].
  split; [rewrite room_more, zlen_app by assumption; lia|]. split; [apply well_formed_more; assumption|].
  unfold has_color, has_alpha in *. rewrite header_more by assumption.
  split; [exact H5|]. split; [apply tables_more; assumption|].
  split; intros K; [apply color_more; auto|apply alpha_more; auto].
Qed.
Lemma u_written_more data e k : bytes e -> u_written data k -> u_written (data ++ e) k.
Proof.
  intros He (H1 & H2 & H3 & H4 & H5 & H6 & H7 & H8). pose proof (zlen_nonneg e) as Le.
  split; [apply bytes_more; assumption|]. split; [rewrite zlen_app; lia|].
  split; [rewrite room_more, zlen_app by assumption; lia|]. split; [apply well_formed_more; assumption|].
  unfold has_color, has_alpha in *. rewrite header_more by assumption.
  split; [exact H5|]. split; [apply tables_more; assumption|].
  split; intros K; [apply u_color_more; auto|apply u_alpha_more; auto].
Qed.

(** The section of a level gains at most the appended bytes. *)
Lemma level_more data e level bs rest : bytes data -> header_room data <= zlen data -> 74 <= zlen data -> 0 <= level < levels_of data ->
  level_start data level < level_stop data level -> level_stop data level <= zlen data ->
  bit_stream (section data (level_start data level) (level_stop data level - level_start data level)) = bs ++ rest ->
  level_start (data ++ e) level < level_stop (data ++ e) level /\ level_stop (data ++ e) level <= zlen (data ++ e) /\
  exists rest', bit_stream (section (data ++ e) (level_start (data ++ e) level)
                  (level_stop (data ++ e) level - level_start (data ++ e) level)) = bs ++ rest'.
Proof.
  intros Hb HR HM HL H1 H2 E. pose proof (zlen_nonneg e) as Le.
  assert (level_start (data ++ e) level = level_start data level) as ES
    by (unfold level_start, header_room in *; apply number_more; lia).
  assert (0 <= level_start data level) as P0
    by (unfold level_start; apply (ProofCrnFile.number_range data _ 4 Hb); lia).
  rewrite ES. unfold level_stop in *. rewrite levels_more by lia. destruct (Z.ltb_spec (level + 1) (levels_of data)) as [C|C].
  - unfold header_room in HR. rewrite number_more by lia. rewrite zlen_app. split; [lia|]. split; [lia|].
    exists rest. rewrite section_more by lia. exact E.
  - rewrite zlen_app. split; [lia|]. split; [lia|].
    exists (rest ++ bit_stream e). rewrite app_assoc, <- E.
    assert (section (data ++ e) (level_start data level) (zlen data + zlen e - level_start data level) =
            section data (level_start data level) (zlen data - level_start data level) ++ e) as ->.
    { unfold section, zlen in *. rewrite skipn_app. replace (Z.to_nat (level_start data level) - length data)%nat with 0%nat by lia.
      cbn [skipn]. rewrite !firstn_all2; [reflexivity|rewrite skipn_length; lia|rewrite app_length, skipn_length; lia]. }
    unfold bit_stream. apply flat_map_app.
Qed.
Lemma planes_more data e k : header_room data <= zlen data -> 74 <= zlen data -> file_planes (data ++ e) k = file_planes data k.
Proof. intros HR HM. unfold file_planes. rewrite header_more by assumption. reflexivity. Qed.
Lemma level_written_more data e k level D : written data k -> level_written data k level D -> level_written (data ++ e) k level D.
Proof.
  intros (B & HM & HR & _) (H1 & H2 & H3 & H4 & H5 & H6 & H7 & H8 & rest & H9). unfold level_written. cbv zeta.
  destruct (level_more data e level _ rest B HR HM (conj (proj1 H1) H2) H3 H4 H9) as (K1 & K2 & K3).
  rewrite planes_more, levels_more, !number_more by lia.
  split; [exact H1|]. split; [exact H2|]. split; [exact K1|]. split; [exact K2|]. split; [exact H5|].
  split; [exact H6|]. split; [exact H7|]. split; [exact H8|]. exact K3.
Qed.
Lemma u_pal_more data e k : header_room data <= zlen data -> 74 <= zlen data ->
  u_ce (data ++ e) k = u_ce data k /\ u_cs (data ++ e) k = u_cs data k /\ u_ae (data ++ e) k = u_ae data k /\ u_al (data ++ e) k = u_al data k.
Proof. intros HR HM. unfold u_ce, u_cs, u_ae, u_al. rewrite header_more by assumption. auto. Qed.
Lemma u_level_written_more data e k level L : u_written data k -> u_level_written data k level L -> u_level_written (data ++ e) k level L.
Proof.
  intros (B & HM & HR & _) (H1 & H2 & H3 & H4 & H5 & H6 & H8 & rest & H9). unfold u_level_written.
  destruct (level_more data e level _ rest B HR HM (conj (proj1 H1) H2) H3 H4 H9) as (K1 & K2 & K3).
  destruct (u_pal_more data e k HR HM) as (P1 & P2 & P3 & P4).
  unfold u_level_fits, u_stream in *. rewrite P1, P2, P3, P4, levels_more, !number_more by lia.
  split; [exact H1|]. split; [exact H2|]. split; [exact K1|]. split; [exact K2|]. split; [exact H5|].
  split; [exact H6|]. split; [exact H8|]. exact K3.
Qed.
Lemma blocks_more data e k level D : header_room data <= zlen data -> 74 <= zlen data ->
  blocks_of_level (data ++ e) k level D = blocks_of_level data k level D.
Proof. intros HR HM. unfold blocks_of_level. rewrite planes_more, !number_more by lia. reflexivity. Qed.
Lemma u_blocks_more data e k level L : header_room data <= zlen data -> 74 <= zlen data ->
  u_blocks_of_level (data ++ e) k level L = u_blocks_of_level data k level L.
Proof.
  intros HR HM. destruct (u_pal_more data e k HR HM) as (P1 & P2 & P3 & P4).
  unfold u_blocks_of_level, u_block_at. rewrite P1, P2, P3, P4, !number_more by lia. reflexivity.
Qed.
