(** * Unity crunch files: odd widths, sizes of blocks. *)
From Verif Require Import Base BaseLemmas ModelCrn ModelCrunch ModelUnity SpecCrn SpecCrnHeader SpecCrnLevel SpecCrnFile SpecCrnTexel SpecUnity SpecUnityFile
  ProofCrnHeader ProofCrnGrid ProofCrnFile ProofCrnKeep ProofCrnDecode ProofUnityGrid ProofUnityWhole.

(** ** Odd numbers of columns *)
Lemma ua_checked w x v : ua Checked w x = Ok v -> v = x.
Proof. unfold ua. destruct (_ && _); [congruence|discriminate]. Qed.

Lemma unity_level_2_odd u src size n W level out :
  Z.shiftr (Z.max (Z.shiftr (h_width (u_header u)) level) 1 + 3) 2 = W -> 1 <= W -> W mod 2 = 1 ->
  unity_unpack_level_2 Checked u src size n (W * u_block_size (h_format (u_header u))) level <> Ok out.
Proof.
  intros EW HW O H. unfold unity_unpack_level_2 in H. rewrite EW in H.
  change FmtDxt1 with 0 in H. change FmtDxt5a with 9 in H. change FmtDxt5 with 2 in H. change FmtDxt5CcxY with 3 in H. change FmtDxt5XGxR with 4 in H. change FmtDxt5XGbr with 5 in H. change FmtDxt5Agbr with 6 in H. change FmtDxnXy with 7 in H. change FmtDxnYx with 8 in H.
  change FmtEtc1 with 10 in H. change FmtEtc2 with 11 in H. change FmtEtc2a with 12 in H. change FmtEtc1s with 13 in H. change FmtEtc2as with 14 in H.
  set (f := h_format (u_header u)) in *. fold (u_block_size f) in H.
  assert (u_block_size f = 8 \/ u_block_size f = 16) as HB.
  { unfold u_block_size. match goal with |- context [if ?b then _ else _] => destruct b end; auto. }
  destruct (Z.eqb_spec (W * u_block_size f) 0); [nia|]. step H. destruct (_ || _) in E; [discriminate|]. injection E as <-.
  step H. destruct (n <? a) in H; [discriminate|]. step H.
  assert (forall S oh fc (body : Z -> Z -> bool -> Z -> S -> res S) st, u_block_size f = 8 -> unity_loops Checked 2 (W * u_block_size f) W oh fc body st = Panic) as P8.
  { intros S oh fc body st ->. change 8 with (4 * 2). apply unity_loops_odd; lia. }
  assert (forall S oh fc (body : Z -> Z -> bool -> Z -> S -> res S) st, u_block_size f = 16 -> unity_loops Checked 4 (W * u_block_size f) W oh fc body st = Panic) as P16.
  { intros S oh fc body st ->. change 16 with (4 * 4). apply unity_loops_odd; lia. }
  assert (forall k, f = k -> u_block_size f = u_block_size k) as BK by (intros; congruence).
  repeat match type of H with
  | (if ?b then unity_unpack_dxt1 _ _ _ _ _ _ _ else _) = _ => destruct b eqn:K
  | (if ?b then unity_unpack_dxt5 _ _ _ _ _ _ _ else _) = _ => destruct b eqn:K1
  | (if ?b then unity_unpack_dxt5a _ _ _ _ _ _ _ else _) = _ => destruct b eqn:K2
  | (if ?b then unity_unpack_dxn _ _ _ _ _ _ _ else _) = _ => destruct b eqn:K3
  | (if ?b then unity_unpack_etc1 _ _ _ _ _ _ _ else _) = _ => destruct b eqn:K4
  | (if ?b then unity_unpack_etc2a _ _ _ _ _ _ _ else _) = _ => destruct b eqn:K5
  end.
  - unfold unity_unpack_dxt1 in H. rewrite P8 in H; [discriminate|]. assert (f = 0 \/ f = 13) as [->| ->] by lia; reflexivity.
  - unfold unity_unpack_dxt5 in H. rewrite P16 in H; [discriminate|].
    assert (f = 2 \/ f = 3 \/ f = 4 \/ f = 5 \/ f = 6 \/ f = 14) as [->|[->|[->|[->|[->| ->]]]]] by lia; reflexivity.
  - unfold unity_unpack_dxt5a in H. rewrite P8 in H; [discriminate|]. assert (f = 9) as -> by lia; reflexivity.
  - unfold unity_unpack_dxn in H. rewrite P16 in H; [discriminate|]. assert (f = 7 \/ f = 8) as [->| ->] by lia; reflexivity.
  - unfold unity_unpack_etc1 in H. rewrite P8 in H; [discriminate|]. assert (f = 10 \/ f = 11) as [->| ->] by lia; reflexivity.
  - unfold unity_unpack_etc2a in H. rewrite P16 in H; [discriminate|]. assert (f = 12) as -> by lia; reflexivity.
  - discriminate.
Qed.

Lemma unity_texels_size f raw tex : unity_texels f = Some (raw, tex) -> raw = u_block_size f.
Proof.
  unfold unity_texels, crunch_texels. intros T.
  destruct (Z.eqb_spec f 10) as [->|]; [cbn [Z.eqb Pos.eqb orb] in T; apply some_pair in T; destruct T as [<- _]; reflexivity|]. destruct (Z.eqb_spec f 13) as [->|]; [cbn [Z.eqb Pos.eqb orb] in T; apply some_pair in T; destruct T as [<- _]; reflexivity|].
  destruct (Z.eqb_spec f 11) as [->|]; [cbn [Z.eqb Pos.eqb orb] in T; apply some_pair in T; destruct T as [<- _]; reflexivity|]. destruct (Z.eqb_spec f 12) as [->|]; [cbn [Z.eqb Pos.eqb orb] in T; apply some_pair in T; destruct T as [<- _]; reflexivity|].
  destruct (Z.eqb_spec f 14) as [->|]; [cbn [Z.eqb Pos.eqb orb] in T; apply some_pair in T; destruct T as [<- _]; reflexivity|]. cbn [orb] in T.
  destruct (Z.eqb_spec f 0) as [->|]; [cbn [Z.eqb Pos.eqb orb] in T; apply some_pair in T; destruct T as [<- _]; reflexivity|]. destruct ((2 <=? f) && (f <=? 6)) eqn:K.
  { injection T as <- _. assert (f = 2 \/ f = 3 \/ f = 4 \/ f = 5 \/ f = 6) as [->|[->|[->|[->| ->]]]] by lia; reflexivity. }
  destruct (Z.eqb_spec f 7) as [->|]; [cbn [Z.eqb Pos.eqb orb] in T; apply some_pair in T; destruct T as [<- _]; reflexivity|]. destruct (Z.eqb_spec f 8) as [->|]; [cbn [Z.eqb Pos.eqb orb] in T; apply some_pair in T; destruct T as [<- _]; reflexivity|].
  destruct (Z.eqb_spec f 9) as [->|]; [cbn [Z.eqb Pos.eqb orb] in T; apply some_pair in T; destruct T as [<- _]; reflexivity|discriminate].
Qed.

Lemma unity_odd_never d level r : bytes d -> 0 <= level -> level_cols (number d 12 2) level mod 2 = 1 ->
  unity_crunch_unpack_level Checked d (zlen d) level <> Ok r.
Proof.
  intros Hb Hl O H. destruct r as [fr dxt]. pose proof H as H'. destruct (unity_unpack_facts Checked d level fr dxt Hb Hl H') as (-> & _ & raw & tex & T & _). clear H'.
  unfold unity_crunch_unpack_level in H. step H. apply or_err_inv in E. destruct (info_inv d a Hb E) as (-> & L1 & L2 & WF & F15).
  step H. pose proof (unity_begin_header Checked d a Hb E0) as EH. cbn [i_width i_height i_format info_at] in H.
  pose proof (number_range d 12 2 Hb ltac:(lia)) as Nw.
  destruct (level_cols_eq (number d 12 2) level ltac:(lia) ltac:(lia)) as [E1 HW].
  rewrite (Z.max_comm 1 (Z.shiftr (number d 12 2) level)), E1 in H.
  rewrite (Z.max_r 1 (level_cols _ _)) in H by lia. set (W := level_cols (number d 12 2) level) in *.
  step H. step H. step H. step H. injection H as _.
  pose proof (unity_block_size _ _ _ _ E2 T) as Er. subst a0. rewrite (unity_texels_size _ _ _ T) in E3. apply ua_checked in E3. subst a1.
  unfold unity_crnd_unpack_level in E5. destruct (_ || _) in E5; [discriminate|]. step E5. destruct a0 as [src sz].
  eapply (unity_level_2_odd a src sz a2 W level a3); [rewrite EH; exact E1|lia|exact O|]. rewrite EH. exact E5.
Qed.

(** ** Sizes *)
Lemma u_zlen_block data k level L n tex : u_level_fits data k L -> 
  zlen (u_block_at data k level L n) = u_block_size (number data 18 1) /\
  (unity_texels (number data 18 1) = Some tex -> fst tex = u_block_size (number data 18 1)).
Proof.
  intros HL. split; [|intros T; destruct tex as [raw tex]; exact (unity_texels_size _ _ _ T)].
  unfold u_level_fits in HL. unfold u_block_at. destruct L as [D|E].
  - destruct HL as [Hp _]. unfold u_block. set (f := number data 18 1) in *. unfold plane_nos. rewrite (zlen_flat_map 8); [|apply zlen_nonneg|].
    + unfold u_planes_of, u_block_size in *. destruct (Z.eqb_spec f 0); [reflexivity|]. destruct (Z.eqb_spec f 13); [cbn [orb]; rewrite orb_true_r; reflexivity|]. cbn [orb] in *.
      destruct (((2 <=? f) && (f <=? 6)) || (f =? 14)) eqn:K1.
      { destruct (Z.eqb_spec f 9); [lia|]. destruct (Z.eqb_spec f 10); [lia|]. destruct (Z.eqb_spec f 11); [lia|]. reflexivity. }
      destruct ((f =? 7) || (f =? 8)) eqn:K2.
      { destruct (Z.eqb_spec f 9); [lia|]. destruct (Z.eqb_spec f 10); [lia|]. destruct (Z.eqb_spec f 11); [lia|]. reflexivity. }
      destruct (Z.eqb_spec f 9); [reflexivity|congruence].
    + intros p Hpp. assert (forall x, In x (u_planes_of f (u_ce data k) (u_cs data k) (u_ae data k) (u_al data k)) ->
        x = color_plane (u_ce data k) (u_cs data k) \/ x = alpha_plane (u_ae data k) (u_al data k)) as Q.
      { intros x. unfold u_planes_of. repeat match goal with |- context [if ?b then _ else _] => destruct b end; cbn [In]; intuition. }
      assert (In (plane_at (u_planes_of f (u_ce data k) (u_cs data k) (u_ae data k) (u_al data k)) p) (u_planes_of f (u_ce data k) (u_cs data k) (u_ae data k) (u_al data k))) as I.
      { unfold plane_at. apply nth_In. unfold zlen in Hpp. lia. }
      destruct (Q _ I) as [-> | ->]; cbn [color_plane alpha_plane pl_block]; rewrite !zlen_app, !zlen_le by lia; reflexivity.
  - destruct HL as [Hh _]. unfold has_halves in Hh. apply andb_prop in Hh. destruct Hh as [H1 H2]. apply Z.leb_le in H1, H2.
    unfold e_block, e_color_part, etc_head, e_alpha_part. set (f := number data 18 1) in *. assert (f = 10 \/ f = 11 \/ f = 12) as [->|[->| ->]] by lia;
      cbn [Z.eqb Pos.eqb]; rewrite !zlen_app, !zlen_le by lia; reflexivity.
Qed.
Lemma u_texels data k L : u_level_fits data k L -> exists tex, unity_texels (number data 18 1) = Some (u_block_size (number data 18 1), tex).
Proof.
  intros HL. pose proof (u_formats data k L HL) as Q. set (f := number data 18 1) in *.
  assert (f = 0 \/ f = 2 \/ f = 3 \/ f = 4 \/ f = 5 \/ f = 6 \/ f = 7 \/ f = 8 \/ f = 9 \/ f = 10 \/ f = 11 \/ f = 12 \/ f = 13 \/ f = 14) as K by lia.
  repeat (destruct K as [->|K]; [eexists; reflexivity|]). rewrite K. eexists. reflexivity.
Qed.
