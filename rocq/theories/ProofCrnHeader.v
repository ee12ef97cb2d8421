(** * Proofs about the crunch header. *)
From Verif Require Import Base BaseLemmas ModelColor ModelCrn ModelCrunch ModelUnity SpecCrnHeader.

Lemma firstn_4 (l : list Z) : 4 <= zlen l -> firstn 4 l = [znth l 0; znth l 1; znth l 2; znth l 3].
Proof. unfold zlen. destruct l as [|a [|b [|c [|d l]]]]; cbn [length]; intros H; try lia. reflexivity. Qed.
Lemma firstn_3 (l : list Z) : 3 <= zlen l -> firstn 3 l = [znth l 0; znth l 1; znth l 2].
Proof. unfold zlen. destruct l as [|a [|b [|c l]]]; cbn [length]; intros H; try lia. reflexivity. Qed.
Lemma firstn_2 (l : list Z) : 2 <= zlen l -> firstn 2 l = [znth l 0; znth l 1].
Proof. unfold zlen. destruct l as [|a [|b l]]; cbn [length]; intros H; try lia. reflexivity. Qed.
Lemma firstn_1 (l : list Z) : 1 <= zlen l -> firstn 1 l = [znth l 0].
Proof. unfold zlen. destruct l as [|a l]; cbn [length]; intros H; try lia. reflexivity. Qed.

Lemma number_1 d o : number d o 1 = znth d o.
Proof. unfold number. change (zrange 0 1) with [0]. cbn [fold_right]. rewrite ?Z.add_0_r. change (256 ^ (1 - 1 - 0)) with 1. lia. Qed.
Lemma number_2 d o : number d o 2 = znth d o * 256 + znth d (o + 1).
Proof. unfold number. change (zrange 0 2) with [0;1]. cbn [fold_right]. rewrite ?Z.add_0_r. change (256 ^ (2 - 1 - 0)) with 256. change (256 ^ (2 - 1 - 1)) with 1. lia. Qed.
Lemma number_3 d o : number d o 3 = znth d o * 65536 + znth d (o + 1) * 256 + znth d (o + 2).
Proof. unfold number. change (zrange 0 3) with [0;1;2]. cbn [fold_right]. rewrite ?Z.add_0_r. change (256 ^ (3 - 1 - 0)) with 65536. change (256 ^ (3 - 1 - 1)) with 256. change (256 ^ (3 - 1 - 2)) with 1. lia. Qed.
Lemma number_4 d o : number d o 4 = znth d o * 16777216 + znth d (o + 1) * 65536 + znth d (o + 2) * 256 + znth d (o + 3).
Proof. unfold number. change (zrange 0 4) with [0;1;2;3]. cbn [fold_right]. rewrite ?Z.add_0_r. change (256 ^ (4 - 1 - 0)) with 16777216. change (256 ^ (4 - 1 - 1)) with 65536. change (256 ^ (4 - 1 - 2)) with 256. change (256 ^ (4 - 1 - 3)) with 1. lia. Qed.

Lemma packed_ok n d o : bytes d -> 1 <= n <= 4 -> 0 <= o -> o + n <= zlen d -> packed n d o = Ok (number d o n).
Proof.
  intros Hb Hn Ho Hl. unfold packed. rewrite slice_from_ok by lia. cbn [bind].
  set (l := skipn (Z.to_nat o) d). assert (n <= zlen l) as Ll by (unfold l; rewrite zlen_skipn; lia).
  assert (forall k, 0 <= k -> znth l k = znth d (o + k)) as N by (intros k Hk; unfold l; rewrite znth_skipn by lia; f_equal; lia).
  rewrite slice_ok by lia. cbn [bind]. change (skipn (Z.to_nat 0) l) with l. rewrite Z.sub_0_r.
  assert (n = 1 \/ n = 2 \/ n = 3 \/ n = 4) as [->|[->|[->| ->]]] by lia.
  - change (Z.to_nat 1) with 1%nat. rewrite firstn_1 by lia. cbn [cast_to_uint]. rewrite N by lia. rewrite number_1, Z.add_0_r. reflexivity.
  - change (Z.to_nat 2) with 2%nat. rewrite firstn_2 by lia. unfold cast_to_uint, be_bytes. cbn [fold_left]. rewrite !N by lia. rewrite number_2, Z.add_0_r. f_equal. 
  - change (Z.to_nat 3) with 3%nat. rewrite firstn_3 by lia. unfold cast_to_uint, be_bytes. cbn [fold_left]. rewrite !N by lia. rewrite number_3, Z.add_0_r. f_equal.
    pose proof (bytes_znth d o Hb) as R0. pose proof (bytes_znth d (o + 1) Hb) as R1. pose proof (bytes_znth d (o + 2) Hb) as R2. unfold is_byte in *.
    rewrite shl_mul by lia. rewrite lor_add; [change (2 ^ 16) with 65536; lia|lia|lia].
  - change (Z.to_nat 4) with 4%nat. rewrite firstn_4 by lia. unfold cast_to_uint, be_bytes. cbn [fold_left]. rewrite !N by lia. rewrite number_4, Z.add_0_r. f_equal. lia.
Qed.
Lemma packed_panic n d o : 0 <= o -> 0 <= n -> zlen d < o + n -> packed n d o = Panic.
Proof.
  intros Ho Hn Hl. unfold packed, slice_from. destruct (Z.leb_spec 0 o); [|lia]. cbn [andb].
  destruct (Z.leb_spec o (zlen d)); [|reflexivity]. cbn [bind]. unfold slice. rewrite zlen_skipn.
  destruct (Z.leb_spec n (Z.max 0 (zlen d - Z.of_nat (Z.to_nat o)))); [lia|]. rewrite andb_false_r. reflexivity.
Qed.
Lemma number_skip d o a n : 0 <= o -> 0 <= a -> number (skipn (Z.to_nat o) d) a n = number d (o + a) n.
Proof.
  intros Ho Ha. unfold number.
  assert (forall k, In k (zrange 0 n) -> 0 <= k) as H by (intros k Hk; apply in_zrange in Hk; lia).
  induction (zrange 0 n) as [|k l IH]; [reflexivity|]. cbn [fold_right].
  rewrite IH by (intros; apply H; right; auto). rewrite znth_skipn by (specialize (H k (or_introl eq_refl)); lia).
  f_equal. f_equal. f_equal. lia.
Qed.
Lemma packed_palette_ok d o : bytes d -> 0 <= o -> o + 8 <= zlen d -> packed_palette d o = Ok (palette_at d o).
Proof.
  intros Hb Ho Hl. unfold packed_palette. rewrite slice_from_ok by lia. cbn [bind].
  assert (bytes (skipn (Z.to_nat o) d)) as Hb' by (apply bytes_skipn, Hb).
  rewrite !packed_ok by (auto; try lia; rewrite zlen_skipn; lia). cbn [bind]. unfold palette_at.
  rewrite !number_skip by lia. rewrite Z.add_0_r. reflexivity.
Qed.

Lemma levels_ok d : bytes d -> header_room d <= zlen d ->
  for_range 0 (levels_of d) (fun i acc => let* v := packed 4 d (70 + i * 4) in Ok (acc ++ [v])) [] =
  Ok (map (fun i => number d (70 + 4 * i) 4) (zrange 0 (levels_of d))).
Proof.
  intros Hb Hl. unfold header_room in Hl. pose proof (bytes_znth d 16 Hb). fold (levels_of d) in *.
  edestruct (for_range_inv (fun i acc => acc = map (fun i => number d (70 + 4 * i) 4) (zrange 0 i)) 0 (levels_of d)) as (r & E & ->);
    [lia|reflexivity| |exact E].
  intros i acc Hi ->. rewrite packed_ok by (auto; lia). cbn [bind]. eexists. split; [reflexivity|].
  rewrite zrange_snoc by lia. rewrite map_app. cbn [map]. do 3 f_equal. lia.
Qed.
Lemma levels_panic d : bytes d -> 74 <= zlen d < header_room d ->
  for_range 0 (levels_of d) (fun i acc => let* v := packed 4 d (70 + i * 4) in Ok (acc ++ [v])) [] = Panic.
Proof.
  intros Hb Hl. unfold header_room in Hl. pose proof (bytes_znth d 16 Hb). fold (levels_of d) in *.
  assert (forall n acc i, i + Z.of_nat n = levels_of d -> 0 <= i -> (1 <= Z.of_nat n) ->
    for_range i (levels_of d) (fun i acc => let* v := packed 4 d (70 + i * 4) in Ok (acc ++ [v])) acc = Panic) as K.
  { induction n as [|n IH]; intros acc i Ei Hi Hn; [lia|].
    rewrite for_range_cons by lia.
    destruct (Z.le_gt_cases (70 + i * 4 + 4) (zlen d)) as [L|L].
    - rewrite packed_ok by (auto; lia). cbn [bind]. apply IH; lia.
    - rewrite packed_panic by lia. reflexivity. }
  apply (K (Z.to_nat (levels_of d))); lia.
Qed.

Lemma sig_ok d : bytes d -> (u16 (number d 0 2) =? CRNSIG_VALUE) = (znth d 0 =? 72) && (znth d 1 =? 120).
Proof.
  intros Hb. pose proof (bytes_znth d 0 Hb). pose proof (bytes_znth d 1 Hb). rewrite number_2. change (0 + 1) with 1.
  unfold u16. rewrite Z.mod_small by lia. change CRNSIG_VALUE with (72 * 256 + 120).
  destruct (Z.eqb_spec (znth d 0) 72), (Z.eqb_spec (znth d 1) 120); cbn [andb]; apply Z.eqb_eq || apply Z.eqb_neq; lia.
Qed.

Theorem header_code d : bytes d -> crnd_get_header d (zlen d) =
  if zlen d <? 74 then Err ""
  else if zlen d <? header_room d then Panic
  else if well_formed d then Ok (header_at d) else Err "".
Proof.
  intros Hb. unfold crnd_get_header, HEADER_MIN_SIZE.
  destruct (Z.ltb_spec (zlen d) 74) as [L|L]; [reflexivity|].
  rewrite !packed_ok by (auto; lia). cbn [bind]. rewrite !packed_palette_ok by (auto; lia). cbn [bind].
  rewrite (number_1 d 16). fold (levels_of d).
  destruct (Z.ltb_spec (zlen d) (header_room d)) as [L'|L'].
  - rewrite levels_panic by (auto; lia). reflexivity.
  - rewrite levels_ok by auto. cbn [bind]. rewrite sig_ok by auto. unfold well_formed.
    destruct ((znth d 0 =? 72) && (znth d 1 =? 120)); cbn [negb andb]; [|reflexivity].
    destruct (Z.ltb_spec (number d 2 2) 74), (Z.leb_spec 74 (number d 2 2)); try lia; cbn [andb orb]; [reflexivity|].
    destruct (Z.ltb_spec (zlen d) (number d 6 4)), (Z.leb_spec (number d 6 4) (zlen d)); try lia; reflexivity.
Qed.

Theorem info_code d : bytes d -> crnd_get_texture_info d (zlen d) =
  if zlen d <? 74 then Err ""
  else if zlen d <? header_room d then Panic
  else if well_formed d && (znth d 18 <=? 15) then Ok (info_at d) else Err "".
Proof.
  intros Hb. unfold crnd_get_texture_info. rewrite header_code by auto. unfold HEADER_MIN_SIZE.
  destruct (zlen d <? 74); [reflexivity|]. destruct (zlen d <? header_room d); [reflexivity|].
  destruct (well_formed d); cbn [bind andb]; [|reflexivity].
  unfold header_at, info_at. cbn [h_format h_width h_height h_levels h_faces h_userdata0 h_userdata1].
  rewrite (number_1 d 18). pose proof (bytes_znth d 18 Hb) as R. revert R. generalize (znth d 18). intros f R.
  unfold format_of. destruct (Z.leb_spec 0 f); [|lia]. destruct (Z.leb_spec f 15); cbn [andb].
  - assert (In f (zrange 0 16)) as I by (apply in_zrange; lia).
    assert (f = 0 \/ f = 1 \/ f = 2 \/ f = 3 \/ f = 4 \/ f = 5 \/ f = 6 \/ f = 7 \/ f = 8 \/ f = 9 \/ f = 10 \/ f = 11 \/ f = 12 \/ f = 13 \/ f = 14 \/ f = 15) as C by lia.
    repeat (destruct C as [->|C]; [reflexivity|]). subst f. reflexivity.
  - reflexivity.
Qed.

(** ** Rejected files *)
Definition rejected (d : list Z) : Prop :=
  zlen d < 74 \/ header_room d <= zlen d /\ (well_formed d = false \/ 15 < znth d 18).
Lemma info_rejected d : bytes d -> rejected d -> crnd_get_texture_info d (zlen d) = Err "".
Proof.
  intros Hb R. rewrite info_code by auto. destruct (Z.ltb_spec (zlen d) 74); [reflexivity|].
  destruct R as [R|[R1 R2]]; [lia|]. destruct (Z.ltb_spec (zlen d) (header_room d)); [lia|].
  destruct R2 as [->|R2]; [reflexivity|]. destruct (Z.leb_spec (znth d 18) 15); [lia|]. rewrite andb_false_r. reflexivity.
Qed.
Lemma crunch_rejected m d w h image : bytes d -> zlen d < 2 ^ 32 -> rejected d ->
  decode_crunch m d w h image = Ok (Failed "Invalid crunch texture encoding.", image) /\
  decode_unity_crunch m d w h image = Ok (Failed "Invalid crunch texture encoding.", image).
Proof.
  intros Hb Hl R. pose proof (zlen_nonneg d). unfold decode_crunch, decode_unity_crunch, crunch_unpack_level, unity_crunch_unpack_level.
  unfold u32. rewrite Z.mod_small by lia. rewrite info_rejected by auto. split; reflexivity.
Qed.
Lemma crunch_short_header m d w h image : bytes d -> zlen d < 2 ^ 32 -> 74 <= zlen d < header_room d ->
  decode_crunch m d w h image = Panic /\ decode_unity_crunch m d w h image = Panic.
Proof.
  intros Hb Hl R. unfold decode_crunch, decode_unity_crunch, crunch_unpack_level, unity_crunch_unpack_level.
  unfold u32. rewrite Z.mod_small by lia. rewrite info_code by auto.
  destruct (Z.ltb_spec (zlen d) 74); [lia|]. destruct (Z.ltb_spec (zlen d) (header_room d)); [|lia]. split; reflexivity.
Qed.
