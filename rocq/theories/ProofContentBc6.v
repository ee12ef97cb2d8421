(** * Proofs about the pictures BC6H can store. *)
From Verif Require Import Base BaseLemmas BitLemmas ModelColor SpecImage SpecBits SpecBptc SpecBc SpecF16 SpecBc6 ModelBc6 ProofDecoder ProofBits SpecCut ProofCut SpecEncode ProofEncode ProofEncodeSolid SpecContent ProofContent ProofContent7 SpecContentBc6 ProofBc6 ProofBc6Image ProofBc ProofNoErr.

(** ** Images of good blocks *)
Definition implements_good (bs raw : Z) (good : list Z -> Prop) (bd : list Z -> list Z -> res (list Z)) (I : list Z -> Prop) (tex : list Z -> Z -> Z) : Prop :=
  I (repeat (color 0 0 0 255) (Z.to_nat bs)) /\
  forall data buf, bytes data -> raw <= zlen data -> good (firstn (Z.to_nat raw) data) -> I buf ->
    exists buf', bd data buf = Ok buf' /\ I buf' /\ zlen buf' = bs /\ forall t, 0 <= t < bs -> znth buf' t = tex (firstn (Z.to_nat raw) data) t.
Section Good.
Context (m : build) (bw bh raw : Z) (bd : list Z -> list Z -> res (list Z))
  (good I : list Z -> Prop) (tex : list Z -> Z -> Z).
Context (Hbw : 0 < bw < 2 ^ 32) (Hbh : 0 < bh < 2 ^ 32) (Hraw : 0 < raw)
  (Himp : implements_good (bw * bh) raw good bd I tex).

Lemma good_loop data w h image :
  bytes data -> (forall k, 0 <= k < div_ceil w bw * div_ceil h bh -> good (block_bytes raw k data)) -> 0 <= w -> 0 <= h -> 4 * zlen image < 2 ^ 63 ->
  div_ceil w bw * div_ceil h bh * raw < 2 ^ 64 ->
  div_ceil w bw * div_ceil h bh * raw <= zlen data -> w * h <= zlen image ->
  exists image', block_decoder m bw bh raw bd data w h image = Ok (Done, image') /\
    zlen image' = zlen image /\
    forall j, 0 <= j < zlen image ->
      znth image' j =
      if j <? w * h then
        tex (block_bytes raw ((j / w) / bh * div_ceil w bw + (j mod w) / bw) data)
            (((j / w) mod bh) * bw + (j mod w) mod bw)
      else znth image j.
Proof.
  intros Hd Hgood Hw Hh Hfit Hov Hdata Himg.
  set (nbx := div_ceil w bw) in *. set (nby := div_ceil h bh) in *.
  assert (0 <= nbx) by (unfold nbx; destruct (div_ceil_bounds w bw); lia).
  assert (0 <= nby) by (unfold nby; destruct (div_ceil_bounds h bh); lia).
  assert (0 <= nbx * nby) by (apply Z.mul_nonneg_nonneg; auto).
  unfold block_decoder. fold nbx nby.
  rewrite ua_ok by nia; cbn [bind].
  rewrite ua_ok by nia; cbn [bind].
  destruct (Z.ltb_spec (zlen data) (nbx * nby * raw)); [lia|].
  rewrite ua_ok by (split; [apply Z.mul_nonneg_nonneg|]; lia); cbn [bind].
  destruct (Z.ltb_spec (zlen image) (w * h)); [lia|].
  set (P := fun k (st : list Z * list Z * Z) =>
     let '(bf, im, off) := st in
     I bf /\ off = raw * k /\ zlen im = zlen image /\
     forall j, 0 <= j < zlen image ->
      znth im j =
      if (j <? w * h) && ((j / w) / bh * nbx + (j mod w) / bw <? k) then
        tex (block_bytes raw ((j / w) / bh * nbx + (j mod w) / bw) data)
            (((j / w) mod bh) * bw + (j mod w) mod bw)
      else znth image j).
  match goal with |- context [for_range ?a ?b ?f ?s] =>
    destruct (for_range_inv (fun y => P (y * nbx)) a b f s) as ([[bf im] off] & E & HI & Hoff & Hlen & Hnth) end.
  - lia.
  - destruct Himp as [HI0 _]. unfold P. split; [exact HI0|]. split; [lia|]. split; [auto|].
    intros j Hj. destruct (Z.ltb_spec j (w * h)); cbn [andb]; auto.
    assert (0 < w) by nia.
    assert (0 <= j mod w / bw) by (apply Z.div_pos; [apply Z.mod_pos_bound|]; lia).
    assert (0 <= j / w / bh) by (apply Z.div_pos; [apply Z.div_pos|]; lia).
    destruct (Z.ltb_spec (j / w / bh * nbx + j mod w / bw) (0 * nbx)); auto. nia.
  - intros by_ st Hby HP.
    match goal with |- context [for_range ?a ?b ?f ?s] =>
      destruct (for_range_inv (fun x => P (by_ * nbx + x)) a b f s) as (st' & E & HP') end.
    + lia.
    + rewrite Z.add_0_r; auto.
    + intros bx [[bf im] off] Hbx (HI & -> & Hlen & Hnth).
      assert (0 <= by_ * nbx) by (apply Z.mul_nonneg_nonneg; lia).
      assert (by_ * nbx + bx + 1 <= nbx * nby).
      { assert ((by_ + 1) * nbx <= nby * nbx) by (apply Z.mul_le_mono_nonneg_r; lia). lia. }
      assert (raw * (by_ * nbx + bx + 1) <= raw * (nbx * nby)) by (apply Z.mul_le_mono_nonneg_l; lia).
      assert (0 <= raw * (by_ * nbx + bx)) by (apply Z.mul_nonneg_nonneg; lia).
      rewrite slice_from_ok by lia; cbn [bind].
      destruct Himp as [_ Hstep].
      set (d := skipn _ data).
      destruct (Hstep d bf) as (bf' & Ebd & HI' & Hbs & Htex); auto.
      { apply bytes_skipn; auto. }
      { unfold d; rewrite zlen_skipn; lia. }
      { apply (Hgood (by_ * nbx + bx)). fold nbx nby. lia. }
      rewrite Ebd; cbn [bind].
      destruct (copy_block_buffer_spec m bx by_ w h bw bh bf' im)
        as (im' & Ecp & Hlen' & Hnth'); try (fold nbx; fold nby; lia).
      rewrite Ecp; cbn [bind].
      rewrite ua_ok by lia; cbn [bind].
      eexists; split; [reflexivity|]. unfold P. split; [auto|]. split; [lia|]. split; [lia|].
      intros j Hj. rewrite Hnth' by lia. rewrite Hnth by lia.
      destruct (Z.ltb_spec j (w * h)); cbn [andb]; auto.
      assert (0 < w) by nia.
      set (qx := j mod w / bw). set (qy := j / w / bh).
      assert (0 <= qx < nbx) by (apply div_lt_ceil; [apply Z.mod_pos_bound|]; lia).
      assert (0 <= j / w < h) by (split; [apply Z.div_pos; lia|apply Z.div_lt_upper_bound; lia]).
      assert (0 <= qy < nby) by (apply div_lt_ceil; lia).
      destruct (Z.eqb_spec qx bx) as [Ex|Ex]; cbn [andb].
      * destruct (Z.eqb_spec qy by_) as [Ey|Ey]; cbn [andb].
        -- rewrite Ex, Ey.
           destruct (Z.ltb_spec (by_ * nbx + bx) (by_ * nbx + (bx + 1))); [|lia].
           rewrite Htex.
           { unfold block_bytes, d. reflexivity. }
           pose proof (Z.mod_pos_bound (j / w) bh ltac:(lia)).
           pose proof (Z.mod_pos_bound (j mod w) bw ltac:(lia)).
           split; [apply Z.add_nonneg_nonneg; [apply Z.mul_nonneg_nonneg|]; lia|].
           assert (((j / w) mod bh + 1) * bw <= bh * bw) by (apply Z.mul_le_mono_nonneg_r; lia). lia.
        -- destruct (Z.ltb_spec (qy * nbx + qx) (by_ * nbx + bx)),
             (Z.ltb_spec (qy * nbx + qx) (by_ * nbx + (bx + 1))); auto; exfalso; try lia.
           assert (qy + 1 <= by_ \/ by_ + 1 <= qy) as [Hc|Hc] by lia;
             apply Z.mul_le_mono_nonneg_r with (p := nbx) in Hc; lia.
      * destruct (Z.ltb_spec (qy * nbx + qx) (by_ * nbx + bx)),
             (Z.ltb_spec (qy * nbx + qx) (by_ * nbx + (bx + 1))); auto; exfalso; try lia.
        assert (qy + 1 <= by_ \/ by_ + 1 <= qy \/ qy = by_) as [Hc|[Hc|Hc]] by lia;
             [| |subst; lia]; apply Z.mul_le_mono_nonneg_r with (p := nbx) in Hc; lia.
    + exists st'; split; auto. replace ((by_ + 1) * nbx) with (by_ * nbx + nbx) by ring. auto.
  - rewrite E; cbn [bind]. exists im; split; [auto|]. split; [auto|].
    intros j Hj. rewrite Hnth by auto.
    destruct (Z.ltb_spec j (w * h)); cbn [andb]; auto.
    assert (0 < w) by nia.
    set (qx := j mod w / bw). set (qy := j / w / bh).
    assert (0 <= qx < nbx) by (apply div_lt_ceil; [apply Z.mod_pos_bound|]; lia).
    assert (0 <= j / w < h) by (split; [apply Z.div_pos; lia|apply Z.div_lt_upper_bound; lia]).
    assert (0 <= qy < nby) by (apply div_lt_ceil; lia).
    destruct (Z.ltb_spec (qy * nbx + qx) (nby * nbx)); auto.
    exfalso. assert ((qy + 1) * nbx <= nby * nbx) by (apply Z.mul_le_mono_nonneg_r; lia). lia.
Qed.

Lemma good_correct : decodes_where bw bh raw good tex (block_decoder m bw bh raw bd).
Proof.
  intros data w h image (Hd & Hw & Hh & Hfit & Hov & Har). unfold all_blocks.
  unfold blocks in *.
  rewrite <- !div_ceil_eq in * by lia.
  assert (0 <= div_ceil w bw) by (destruct (div_ceil_bounds w bw); lia).
  assert (0 <= div_ceil h bh) by (destruct (div_ceil_bounds h bh); lia).
  assert (0 <= div_ceil w bw * div_ceil h bh) by (apply Z.mul_nonneg_nonneg; auto).
  split; [|split].
  - intros Hs. unfold block_decoder.
    rewrite ua_ok by nia; cbn [bind].
    rewrite ua_ok by nia; cbn [bind].
    destruct (Z.ltb_spec (zlen data) (div_ceil w bw * div_ceil h bh * raw)); [auto|lia].
  - intros Hs Hi. unfold block_decoder.
    rewrite ua_ok by nia; cbn [bind].
    rewrite ua_ok by nia; cbn [bind].
    destruct (Z.ltb_spec (zlen data) (div_ceil w bw * div_ceil h bh * raw)); [lia|].
    rewrite ua_ok by (split; [apply Z.mul_nonneg_nonneg|]; lia); cbn [bind].
    destruct (Z.ltb_spec (zlen image) (w * h)); [auto|lia].
  - intros Hs Hi Hgood.
    destruct (good_loop data w h image) as (im & E & Hlen & Hnth); auto; try lia.
    exists im; split; [auto|]. split; [auto|]. split.
    + intros x y Hx Hy.
      assert (0 <= y * w) by (apply Z.mul_nonneg_nonneg; lia).
      assert ((y + 1) * w <= h * w) by (apply Z.mul_le_mono_nonneg_r; lia).
      rewrite Hnth by lia.
      destruct (Z.ltb_spec (y * w + x) (w * h)); [|lia].
      assert ((y * w + x) / w = y) as ->.
      { symmetry; apply Z.div_unique with x; lia. }
      assert ((y * w + x) mod w = x) as ->.
      { symmetry; apply Z.mod_unique with y; lia. }
      unfold blocks; rewrite <- div_ceil_eq by lia; reflexivity.
    + intros j Hj. assert (0 <= w * h) by (apply Z.mul_nonneg_nonneg; lia).
      rewrite Hnth by lia. destruct (Z.ltb_spec j (w * h)); [lia|auto].
Qed.
End Good.

Definition bc6_good (m : build) (b : list Z) : Prop := m = Wrapping \/ bc6_mode b <> 15.
Definition bc6_code (sgn : bool) : list Z -> Z -> Z := if sgn then bc6s_code_texel else bc6u_code_texel.
Lemma bc6_impl_good m (sgn : bool) : implements_good 16 16 (bc6_good m) (fun data outbuf => decode_bc6_block m data outbuf sgn) (fun l => zlen l = 16) (bc6_code sgn).
Proof.
  split; [reflexivity|]. intros data buf Hb Hd Hg Hl.
  eexists; split; [apply bc6_block_firstn; auto; lia|].
  assert (zlen (tab 16 (code_texel sgn (firstn 16 data)) ++ skipn 16 buf) = 16) as L
    by (change 16%nat with (Z.to_nat 16); rewrite zlen_tab_app; lia).
  split; [auto|]. split; [auto|]. intros t Ht. change 16%nat with (Z.to_nat 16).
  rewrite znth_tab_app by auto. unfold bc6_code. destruct sgn; [apply code_signed|apply code_unsigned]; auto.
Qed.
Lemma bc6_images m (sgn : bool) : decodes_where 4 4 16 (bc6_good m) (bc6_code sgn) (fun data w h image => decode_bc6 m data w h image sgn).
Proof.
  pose proof (good_correct m 4 4 16 _ (bc6_good m) _ (bc6_code sgn) ltac:(lia) ltac:(lia) ltac:(lia) (bc6_impl_good m sgn)) as G.
  intros data w h image S. destruct sgn; exact (G data w h image S).
Qed.

(** ** A block on which the block decoder fails *)
Lemma all_run m bw bh raw bd data w h image s im : 0 < bw -> 0 < bh -> 0 < raw -> 0 <= w -> 0 <= h -> blocks w bw * blocks h bh * raw < 2 ^ 64 -> blocks w bw * blocks h bh * raw <= zlen data ->
  w * h < 2 ^ 64 -> w * h <= zlen image -> block_decoder m bw bh raw bd data w h image = Ok (s, im) ->
  forall k, 0 <= k < blocks w bw * blocks h bh -> exists b b', bd (skipn (Z.to_nat (raw * k)) data) b = Ok b'.
Proof.
  intros Hbw Hbh Hraw Hw Hh HZ HD HA HI. unfold blocks in *. rewrite <- !div_ceil_eq in * by lia. set (nbx := div_ceil w bw) in *. set (nby := div_ceil h bh) in *.
  assert (0 <= nbx) as Nx by (unfold nbx; destruct (div_ceil_bounds w bw); lia). assert (0 <= nby) as Ny by (unfold nby; destruct (div_ceil_bounds h bh); lia).
  assert (0 <= nbx * nby) as Nn by (apply Z.mul_nonneg_nonneg; auto). assert (0 <= nbx * nby * raw) as Nr by (apply Z.mul_nonneg_nonneg; lia).
  assert (nbx * nby * 1 <= nbx * nby * raw) as N1 by (apply Z.mul_le_mono_nonneg_l; lia).
  unfold block_decoder. fold nbx nby. rewrite ua_ok by lia; cbn [bind]. rewrite ua_ok by lia; cbn [bind].
  destruct (Z.ltb_spec (zlen data) (nbx * nby * raw)); [lia|]. rewrite ua_ok by (split; [apply Z.mul_nonneg_nonneg|]; lia); cbn [bind].
  destruct (Z.ltb_spec (zlen image) (w * h)); [lia|]. intros E. apply bind_ok_inv in E as ([[buf im'] off] & E & _).
  set (P k (st : list Z * list Z * Z) := snd st = raw * k /\ forall k', 0 <= k' < k -> exists b b', bd (skipn (Z.to_nat (raw * k')) data) b = Ok b').
  cut (P (nby * nbx) (buf, im', off)); [intros (_ & Q) k Hk; apply Q; lia|].
  refine (for_range_ok_inv (fun y => P (y * nbx)) _ _ _ _ _ Ny _ _ E); clear E.
  { split; [cbn [snd]; lia|intros; lia]. }
  intros by_ st st' Hy HP E. replace ((by_ + 1) * nbx) with (by_ * nbx + nbx) by ring.
  refine (for_range_ok_inv (fun x => P (by_ * nbx + x)) _ _ _ _ _ Nx _ _ E); clear E.
  { rewrite Z.add_0_r. exact HP. }
  clear st st' HP. intros bx [[b i] o] [[b' i'] o'] Hx (Ho & HP) E. cbn [snd] in Ho. subst o.
  assert (0 <= by_ * nbx) by (apply Z.mul_nonneg_nonneg; lia).
  assert (by_ * nbx + bx + 1 <= nbx * nby) as K by (assert ((by_ + 1) * nbx <= nby * nbx) by (apply Z.mul_le_mono_nonneg_r; lia); lia).
  assert (raw * (by_ * nbx + bx + 1) <= raw * (nbx * nby)) by (apply Z.mul_le_mono_nonneg_l; lia).
  assert (0 <= raw * (by_ * nbx + bx)) by (apply Z.mul_nonneg_nonneg; lia).
  rewrite slice_from_ok in E by lia. cbn [bind] in E.
  apply bind_ok_inv in E as (o & Eo & E). apply bind_ok_inv in E as (im1 & _ & E). rewrite ua_ok in E by lia. cbn [bind] in E.
  assert (o' = raw * (by_ * nbx + bx) + raw) as -> by congruence.
  split; [cbn [snd]; ring|]. intros k' Hk'. destruct (Z.eq_dec k' (by_ * nbx + bx)) as [->|]; [exists b, o; exact Eo|]. apply HP. lia.
Qed.
Lemma bc6_panics (sgn : bool) data w h image k : (forall bd, no_err (block_decoder Checked 4 4 16 (fun data out => decode_bc6_block Checked data out bd) data w h image)) -> sized 4 4 16 data w h image ->
  blocks w 4 * blocks h 4 * 16 <= zlen data -> w * h <= zlen image -> 0 <= k < blocks w 4 * blocks h 4 -> bc6_mode (block_bytes 16 k data) = 15 -> decode_bc6 Checked data w h image sgn = Panic.
Proof.
  intros NE (Hb & Hw & Hh & HI & HZ & HA) HD HS Hk M.
  assert (decode_bc6 Checked data w h image sgn = block_decoder Checked 4 4 16 (fun data out => decode_bc6_block Checked data out sgn) data w h image) as -> by (destruct sgn; reflexivity).
  destruct (block_decoder Checked 4 4 16 (fun data out => decode_bc6_block Checked data out sgn) data w h image) as [[s im]|e|] eqn:E; [exfalso|exfalso; exact (NE sgn e E)|reflexivity].
  destruct (all_run Checked 4 4 16 _ data w h image s im ltac:(lia) ltac:(lia) ltac:(lia) ltac:(lia) ltac:(lia) HZ HD HA HS E k Hk) as (b & b' & R).
  assert (16 <= zlen (skipn (Z.to_nat (16 * k)) data)) as L by (rewrite zlen_skipn; lia).
  rewrite bc6_block_mode15 in R; [discriminate R|apply bytes_skipn; exact Hb|exact L|]. rewrite <- M. unfold block_bytes, bc6_mode. rewrite !bits_firstn by (try (apply bytes_skipn; exact Hb); lia). reflexivity.
Qed.

(** ** A block of mode 3 *)
Section Stored6.
Context (v : Z -> Z -> Z) (i : Z -> Z).
Context (Hv : forall c e, 0 <= c < 3 -> 0 <= e < 2 -> 0 <= v c e < 1024) (Hi : choice_below 16 i) (H0 : i 0 < 8).
Let nn (t : Z) := if t =? 0 then 3 else 4.
Let L := ent 5 3 :: (run 6 (fun _ => 10) (fun k => v (k mod 3) (k / 3)) ++ run 16 nn i ++ []).
Let blk6 := to_bytes 16 (pack L).
Lemma nn_wid k : 0 <= k -> wid (run k nn i) = 4 * k - (if k =? 0 then 0 else 1).
Proof.
  intros Hk. pattern k. apply natlike_ind; [reflexivity| |exact Hk]. intros x Hx IH. unfold Z.succ. rewrite run_snoc by (try lia; unfold nn; destruct (x =? 0); lia). rewrite IH. unfold nn.
  rewrite (proj2 (Z.eqb_neq (x + 1) 0)) by lia. destruct (x =? 0); lia.
Qed.
Lemma L6_packs : packable L.
Proof.
  unfold packable, L. apply Forall_cons; [cbn; lia|]. apply Forall_app; split; [|apply Forall_app; split; [|apply Forall_nil]].
  - apply run_packs. intros k Hk. split; [lia|]. apply Hv; [apply Z.mod_pos_bound; lia|split; [apply Z.div_pos; lia|apply Z.div_lt_upper_bound; lia]].
  - apply run_packs. intros k Hk. unfold nn. split; [destruct (k =? 0); lia|]. pose proof (Hi k Hk) as R. destruct (Z.eqb_spec k 0) as [->|_]; [change (2 ^ 3) with 8; lia|exact R].
Qed.
Lemma L6_wid : wid L = 128.
Proof. unfold L. rewrite wid_cons, !wid_app by lia. rewrite run_wid_const, nn_wid by lia. reflexivity. Qed.
Lemma blk6_at o n : bits blk6 o n = pack L / 2 ^ o mod 2 ^ n.
Proof.
  unfold bits, blk6. rewrite le_to_bytes; [reflexivity|]. pose proof (pack_range L L6_packs) as R. pose proof L6_wid as W. unfold wid in W. rewrite W in R. change (256 ^ Z.of_nat 16) with (2 ^ 128). exact R.
Qed.
Lemma blk6_mode : bc6_mode blk6 = 3.
Proof.
  assert (bits blk6 0 5 = 3) as M5. { rewrite blk6_at. pose proof (at_ent [] 5 3 (run 6 (fun _ => 10) (fun k => v (k mod 3) (k / 3)) ++ run 16 nn i ++ []) ltac:(lia) L6_packs) as E. exact E. }
  assert (bits blk6 0 2 = 3) as M2. { unfold bits in *. revert M5. generalize (le_bytes blk6). intros N E. change (2 ^ 5) with 32 in E. change (2 ^ 2) with 4. change (2 ^ 0) with 1 in *. rewrite Z.div_1_r in *. clear - E. Z.to_euclidean_division_equations; lia. }
  unfold bc6_mode. rewrite M2, M5. reflexivity.
Qed.
Lemma blk6_component k : 0 <= k < 6 -> bits blk6 (5 + 10 * k) 10 = v (k mod 3) (k / 3).
Proof.
  intros Hk. rewrite blk6_at. pose proof (run_at [ent 5 3] 6 (fun _ => 10) (fun k => v (k mod 3) (k / 3)) (run 16 nn i ++ []) k Hk ltac:(intros; lia) L6_packs) as E.
  cbv beta in E. rewrite run_wid_const in E by lia. exact E.
Qed.
Lemma blk6_stored c e : 0 <= c < 3 -> 0 <= e < 2 -> stored blk6 c e = v c e.
Proof.
  intros Hc He. pose proof (blk6_component (3 * e + c) ltac:(lia)) as E.
  replace ((3 * e + c) mod 3) with c in E by (clear - Hc He; Z.to_euclidean_division_equations; lia). replace ((3 * e + c) / 3) with e in E by (clear - Hc He; Z.to_euclidean_division_equations; lia).
  rewrite <- E. unfold stored. rewrite blk6_mode. clear E.
  assert (c = 0 \/ c = 1 \/ c = 2) as [-> | [-> | ->]] by lia; assert (e = 0 \/ e = 1) as [-> | ->] by lia; unfold layout, mode_len, component, RW, GW, BW, RX, GX, BX;
    cbn [gather Z.eqb Pos.eqb Z.mul Z.add Z.ltb Z.compare Pos.compare Pos.compare_cont Pos.mul Pos.add Pos.succ]; rewrite ?Z.lor_0_r, ?Z.lor_0_l; change (2 ^ 0) with 1; rewrite Z.mul_1_r; reflexivity.
Qed.
Lemma blk6_anchor t : anchor6 blk6 t = (t =? 0).
Proof. unfold anchor6. rewrite blk6_mode. change (subsets6 3 =? 2) with false. cbn [andb]. apply orb_false_r. Qed.
Lemma blk6_index t : 0 <= t < 16 -> index6 blk6 t = i t.
Proof.
  intros Ht. unfold index6. rewrite blk6_mode. change (subsets6 3 =? 2) with false. cbv zeta iota. rewrite blk6_anchor.
  assert (anchors_below6 blk6 t = if t =? 0 then 0 else 1) as ->.
  { unfold anchors_below6. rewrite (filter_ext (anchor6 blk6) (fun x => x =? 0) blk6_anchor). apply Z.eqb_eq. revert t Ht.
    match goal with |- forall k, 0 <= k < ?N -> (@?p k) = true => apply (all_below_spec N p) end; vm_compute; reflexivity. }
  rewrite blk6_at. assert (L = (ent 5 3 :: run 6 (fun _ => 10) (fun k => v (k mod 3) (k / 3))) ++ run 16 nn i ++ []) as EL by reflexivity. pose proof L6_packs as LP. rewrite EL in *.
  pose proof (run_at (ent 5 3 :: run 6 (fun _ => 10) (fun k => v (k mod 3) (k / 3))) 16 nn i [] t Ht ltac:(intros k _; unfold nn; destruct (k =? 0); lia) LP) as E.
  rewrite wid_cons, run_wid_const, nn_wid in E by lia.
  replace (65 + 4 * t - (if t =? 0 then 0 else 1)) with (5 + 10 * 6 + (4 * t - (if t =? 0 then 0 else 1))) by ring.
  replace (4 - (if t =? 0 then 1 else 0)) with (if t =? 0 then 3 else 4) by (destruct (t =? 0); reflexivity). exact E.
Qed.
Lemma blk6_end sgn c e : 0 <= c < 3 -> 0 <= e < 2 -> (sgn = true -> v c e < 512) -> bc6_end sgn blk6 c e = v c e.
Proof.
  intros Hc He Hs. assert (sgn = true -> sext 10 (v c e) = v c e) as SX. { intros T. unfold sext. change (2 ^ (10 - 1)) with 512. rewrite (proj2 (Z.ltb_lt _ _)) by (apply Hs, T). reflexivity. }
  unfold bc6_end, first_end. cbv zeta. rewrite blk6_mode. change (is_delta 3) with false. change (EB 3) with 10. assert (DB 3 c = 10) as -> by (assert (c = 0 \/ c = 1 \/ c = 2) as [-> | [-> | ->]] by lia; reflexivity).
  cbv iota. destruct (Z.eqb_spec e 0) as [->|_]; rewrite blk6_stored by lia; destruct sgn; try reflexivity; apply SX; reflexivity.
Qed.
Lemma blk6_bytes : bytes blk6 /\ zlen blk6 = 16. Proof. split; [apply to_bytes_bytes|unfold zlen, blk6; rewrite to_bytes_len; reflexivity]. Qed.
Lemma blk6_half sgn ends c t : 0 <= t < 16 -> bc6_half sgn blk6 ends c t = (if sgn then finish_signed else finish_unsigned) (lerp64 (ends c 0) (ends c 1) (znth sixteenths (i t))).
Proof.
  intros Ht. unfold bc6_half, subset6, weight6. cbv zeta. rewrite blk6_mode. change (subsets6 3 =? 2) with false. cbv iota. rewrite blk6_index by exact Ht. change (weights 4) with sixteenths. change (2 * 0) with 0. change (0 + 1) with 1. destruct sgn; reflexivity.
Qed.
End Stored6.

Lemma share_range k : 0 <= k < 16 -> 0 <= znth sixteenths k <= 64.
Proof. intros H. assert (((0 <=? znth sixteenths k) && (znth sixteenths k <=? 64))%bool = true) as E. { revert k H. match goal with |- forall k, 0 <= k < ?N -> (@?p k) = true => apply (all_below_spec N p) end. vm_compute. reflexivity. } apply andb_prop in E. destruct E as [A B]. apply Z.leb_le in A, B. lia. Qed.
Lemma lerp_nonneg a b w : 0 <= a -> 0 <= b -> 0 <= w <= 64 -> 0 <= lerp64 a b w.
Proof. intros A B W. unfold lerp64. apply Z.div_pos; [|lia]. assert (0 <= a * (64 - w)) by (apply Z.mul_nonneg_nonneg; lia). assert (0 <= b * w) by (apply Z.mul_nonneg_nonneg; lia). lia. Qed.

(** ** Values *)
Lemma value_u n : fair_unsigned n -> unq_unsigned 10 n = value_unsigned n.
Proof.
  intros [R N]. unfold unq_unsigned, value_unsigned. change (15 <=? 10) with false. change (2 ^ 10 - 1) with 1023. cbv iota. destruct (Z.eqb_spec n 0); [reflexivity|]. rewrite (proj2 (Z.eqb_neq n 1023)) by lia.
  change (2 ^ 16) with 65536. change (2 ^ 15) with 32768. change (2 ^ 10) with 1024. clear. Z.to_euclidean_division_equations; lia.
Qed.
Lemma value_s n : fair_signed n -> unq_signed 10 n = value_signed n.
Proof.
  intros R. unfold fair_signed in R. unfold unq_signed, value_signed. change (16 <=? 10) with false. change (2 ^ (10 - 1) - 1) with 511. cbv iota zeta. rewrite Z.abs_eq by lia. rewrite (proj2 (Z.ltb_ge n 0)) by lia.
  destruct (Z.eqb_spec n 0); [reflexivity|]. destruct (Z.eqb_spec n 511) as [->|N]; [reflexivity|]. rewrite (proj2 (Z.leb_gt 511 n)) by lia.
  change (2 ^ 15) with 32768. change (2 ^ 14) with 16384. change (2 ^ (10 - 1)) with 512. clear. Z.to_euclidean_division_equations; lia.
Qed.
Lemma value_s_nonneg n : fair_signed n -> 0 <= value_signed n.
Proof. intros R. unfold fair_signed in R. unfold value_signed. destruct (n =? 0); [lia|]. destruct (n =? 511); lia. Qed.

(** Small index of the first texel. *)
Lemma bc6_small (sgn : bool) (a b i : Z -> Z) : (forall ch, 0 <= ch < 3 -> (if sgn then fair_signed else fair_unsigned) (a ch) /\ (if sgn then fair_signed else fair_unsigned) (b ch)) -> choice_below 16 i -> i 0 < 8 ->
  exists bl, bytes bl /\ zlen bl = 16 /\ bc6_mode bl <> 15 /\ forall t, 0 <= t < 16 -> bc6_code sgn bl t = tones sgn a b (znth sixteenths (i t)).
Proof.
  intros HF Hi H0. set (v := fun c e => if e =? 0 then a c else b c).
  assert (forall c e, 0 <= c < 3 -> 0 <= e < 2 -> (if sgn then fair_signed else fair_unsigned) (v c e)) as FV by (intros c e Hc He; unfold v; destruct (HF c Hc) as [A B]; destruct (e =? 0); assumption).
  assert (forall c e, 0 <= c < 3 -> 0 <= e < 2 -> 0 <= v c e < 1024) as Hv by (intros c e Hc He; pose proof (FV c e Hc He) as Q; destruct sgn; [unfold fair_signed in Q|unfold fair_unsigned in Q]; lia).
  set (bl := to_bytes 16 (pack (ent 5 3 :: (run 6 (fun _ : Z => 10) (fun k : Z => v (k mod 3) (k / 3)) ++ run 16 (fun t => if t =? 0 then 3 else 4) i ++ [])))).
  pose proof (blk6_mode v i Hv Hi H0 : bc6_mode bl = 3) as M. pose proof (blk6_bytes v i : bytes bl /\ zlen bl = 16) as [B L].
  pose proof (blk6_half v i Hv Hi H0 : forall sgn ends c t, 0 <= t < 16 -> bc6_half sgn bl ends c t = (if sgn then finish_signed else finish_unsigned) (lerp64 (ends c 0) (ends c 1) (znth sixteenths (i t)))) as HH.
  exists bl. split; [exact B|]. split; [exact L|]. split; [rewrite M; discriminate|]. intros t Ht. pose proof (share_range (i t) (Hi t Ht)) as W.
  unfold bc6_code. destruct sgn.
  - assert (forall c e, 0 <= c < 3 -> 0 <= e < 2 -> bc6_end true bl c e = v c e) as EN by (intros c e Hc He; apply (blk6_end v i Hv Hi H0 true c e Hc He); intros _; pose proof (FV c e Hc He) as Q; unfold fair_signed in Q; lia).
    rewrite clean_signed; [|exact Ht|split; [rewrite M; discriminate|intros c e Hc He; rewrite M in He; change (2 * subsets6 3) with 2 in He; rewrite EN by lia; apply Hv; lia]].
    unfold bc6s_texel, bc6_texel_of. rewrite M. change (bc6_valid 3) with true. change (EB 3) with 10. cbv zeta iota. rewrite !HH by exact Ht. rewrite !EN by lia. rewrite !value_s by (apply (FV _ _); lia).
    unfold tones, tone. cbv zeta iota. unfold finish_signed.
    assert (forall c, 0 <= c < 3 -> (lerp64 (value_signed (v c 0)) (value_signed (v c 1)) (znth sixteenths (i t)) <? 0) = false) as NN.
    { intros c Hc. apply Z.ltb_ge. apply lerp_nonneg; [apply value_s_nonneg, (FV c 0); lia|apply value_s_nonneg, (FV c 1); lia|exact W]. }
    rewrite !NN by lia. reflexivity.
  - assert (forall c e, 0 <= c < 3 -> 0 <= e < 2 -> bc6_end false bl c e = v c e) as EN by (intros c e Hc He; apply (blk6_end v i Hv Hi H0 false c e Hc He); discriminate).
    rewrite clean_unsigned; [|exact Ht|split; [rewrite M; discriminate|intros c e Hc He; rewrite M in *; change (2 * subsets6 3) with 2 in He; rewrite EN by lia; change (EB 3) with 10; change (2 ^ (10 - 1)) with 512; change (2 ^ 10 - 1) with 1023; pose proof (FV c e Hc He) as Q; unfold fair_unsigned in Q; lia]].
    unfold bc6u_texel, bc6_texel_of. rewrite M. change (bc6_valid 3) with true. change (EB 3) with 10. cbv zeta iota. rewrite !HH by exact Ht. rewrite !EN by lia. rewrite !value_u by (apply (FV _ _); lia). reflexivity.
Qed.
Lemma tones_swap (sgn : bool) (a b : Z -> Z) k : 0 <= k < 16 -> tones sgn b a (znth sixteenths (15 - k)) = tones sgn a b (znth sixteenths k).
Proof.
  intros Hk. assert (znth sixteenths (15 - k) = 64 - znth sixteenths k) as -> by (exact (weight_swap 4 k ltac:(lia) Hk)).
  generalize (znth sixteenths k). intros w. assert (forall x y, lerp64 x y (64 - w) = lerp64 y x w) as Q by (intros x y; rewrite lerp_swap; f_equal; ring).
  unfold tones, tone. cbv zeta. rewrite !Q. reflexivity.
Qed.
Lemma bc6_stored sgn f : bc6_pattern sgn f -> exists bl, bytes bl /\ zlen bl = 16 /\ bc6_mode bl <> 15 /\ forall t, 0 <= t < 16 -> bc6_code sgn bl t = f t.
Proof.
  intros (a & b & i & HF & Hi & E). destruct (Z_lt_ge_dec (i 0) 8) as [S|S].
  - destruct (bc6_small sgn a b i HF Hi S) as (bl & B & L & M & T). exists bl. repeat (split; [assumption|]). intros t Ht. rewrite T, E by exact Ht. reflexivity.
  - destruct (bc6_small sgn b a (fun t => 15 - i t)) as (bl & B & L & M & T); [intros ch Hch; destruct (HF ch Hch); split; assumption|intros t Ht; pose proof (Hi t Ht); lia|lia|].
    exists bl. repeat (split; [assumption|]). intros t Ht. rewrite T, E by exact Ht. apply tones_swap, Hi, Ht.
Qed.
Lemma bc6_contents m sgn w h pic : 0 <= w < 2 ^ 64 -> 0 <= h < 2 ^ 64 -> blocks w 4 * blocks h 4 * 16 < 2 ^ 63 -> 4 * (w * h) < 2 ^ 63 -> composed (bc6_pattern sgn) w h pic ->
  has_bc6_data (fun data w h image => decode_bc6 m data w h image sgn) w h pic.
Proof.
  intros Hw Hh HZ HA HC. apply (store 4 4 16 (bc6_good m) (bc6_code sgn)); try assumption; try lia.
  - intros data w' h' image S. destruct (bc6_images m sgn data w' h' image S) as (D1 & D2 & D3). split; [intros Q; rewrite D1 by exact Q; eauto|]. split; [intros Q R; rewrite D2 by assumption; eauto|exact D3].
  - intros bx by_ Hx Hy. destruct (HC bx by_) as (f & P & Q); [lia|lia|apply block_pos; lia|apply block_pos; lia|]. destruct (bc6_stored sgn f P) as (bl & B & L & M & T).
    exists bl. split; [exact B|]. split; [exact L|]. split; [right; exact M|]. intros x y Hx' Hy' Ex Ey.
    rewrite T by (clear; Z.to_euclidean_division_equations; lia). rewrite (Q x y) by (clear - Ex Ey Hx' Hy'; Z.to_euclidean_division_equations; lia).
    f_equal. clear - Ex Ey. Z.to_euclidean_division_equations; lia.
Qed.
