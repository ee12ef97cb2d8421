(** * BC7: contracts of the block function and the image decoder *)
From Verif Require Import Base BaseLemmas BitLemmas FieldLemmas ModelColor SpecImage ProofDecoder SpecBits ModelBits ProofBits
  SpecBc ProofBc SpecBptc SpecBc7 ModelBptc ModelBc7 ProofBcImage ProofBlock ProofBc7 ProofBc7Block.

Lemma bc7_block_ok m data outbuf : bytes data -> 16 <= zlen data -> 16 <= zlen outbuf ->
  decode_bc7_block m data outbuf = Ok (tab 16 (bc7_texel data) ++ skipn 16 outbuf).
Proof.
  intros Hb Hd Ho. apply bc7_block_gen; auto; intros.
  - apply read_ok; auto; lia.
  - apply peek_ok; auto; lia.
Qed.

Lemma bc7_block_firstn m data outbuf : bytes data -> 16 <= zlen data -> 16 <= zlen outbuf ->
  decode_bc7_block m data outbuf = Ok (tab 16 (bc7_texel (firstn 16 data)) ++ skipn 16 outbuf).
Proof.
  intros Hb Hd Ho. apply bc7_block_gen; auto; intros.
  - change 16%nat with (Z.to_nat 16). rewrite bits_firstn by (auto; lia). apply read_ok; auto; lia.
  - change 16%nat with (Z.to_nat 16). rewrite bits_firstn by (auto; lia). apply peek_ok; auto; lia.
Qed.

Lemma bc7_contract m : block_exact 16 bc7_texel (decode_bc7_block m) /\ block_confined 16 (decode_bc7_block m).
Proof. apply exact_of_form. intros; apply bc7_block_ok; auto. Qed.

Lemma bc7_impl m : implements 16 16 (decode_bc7_block m) (fun l => zlen l = 16) bc7_texel.
Proof.
  split; [reflexivity|]. intros data buf Hb Hd Hl.
  eexists; split; [apply bc7_block_firstn; auto; lia|].
  assert (zlen (tab 16 (bc7_texel (firstn 16 data)) ++ skipn 16 buf) = 16) as L
    by (change 16%nat with (Z.to_nat 16); rewrite zlen_tab_app; lia).
  split; [auto|]. split; [auto|]. intros t Ht. apply znth_tab_app; auto.
Qed.

Lemma bc7_image m : image_decoder 4 4 16 bc7_texel (decode_bc7 m).
Proof. eapply bcn_image; [apply bc7_impl|reflexivity|lia]. Qed.

(** The mode is decided by the first byte. *)
Lemma bc7_mode_byte b : bytes b -> 1 <= zlen b -> bc7_mode b = bc7_mode [znth b 0].
Proof.
  intros Hb Hl. assert (forall i, 0 <= i < 8 -> bits b i 1 = bits [znth b 0] i 1) as E.
  { intros i Hi. rewrite <- (bits_firstn b 1) by (auto; lia). f_equal.
    destruct b as [|x b]; [change (zlen (@nil Z)) with 0 in Hl; lia|]. reflexivity. }
  unfold bc7_mode. rewrite (filter_ext_in _ (fun i => bits [znth b 0] i 1 =? 1)); auto.
  intros i Hi. apply in_zrange in Hi. rewrite E by lia. auto.
Qed.

Lemma bc7_mode_sweep : all_below 256 (fun x => Bool.eqb (bc7_mode [x] =? 8) (x =? 0) &&
  all_below 8 (fun k => Bool.eqb (bc7_mode [x] =? k) (x mod 2 ^ (k + 1) =? 2 ^ k))) = true.
Proof. vm_cast_no_check (eq_refl true). Qed.

Lemma eqb_iff a b c d : Bool.eqb (a =? b) (c =? d) = true -> (a = b <-> c = d).
Proof. intros H. apply Bool.eqb_prop in H. destruct (Z.eqb_spec a b), (Z.eqb_spec c d); try discriminate; tauto. Qed.

Lemma bc7_mode_first_byte b : bytes b -> 1 <= zlen b ->
  (bc7_mode b = 8 <-> znth b 0 = 0) /\
  (forall k, 0 <= k < 8 -> (bc7_mode b = k <-> znth b 0 mod 2 ^ (k + 1) = 2 ^ k)).
Proof.
  intros Hb Hl. rewrite bc7_mode_byte by auto.
  pose proof (all_below_spec _ _ bc7_mode_sweep _ (bytes_znth b 0 Hb)) as S. cbv beta in S.
  apply andb_prop in S. destruct S as [S1 S2]. split; [apply eqb_iff; auto|].
  intros k Hk. apply eqb_iff, (all_below_spec _ _ S2 k Hk).
Qed.

Lemma bc7_mode_nonneg b : 0 <= bc7_mode b.
Proof.
  unfold bc7_mode. destruct (filter _ _) as [|i l] eqn:E; [lia|].
  assert (In i (zrange 0 8)) as Hi.
  { apply (proj1 (filter_In (fun i => bits b i 1 =? 1) i (zrange 0 8))). rewrite E. left; auto. }
  apply in_zrange in Hi. lia.
Qed.

Lemma weights_range n k : 0 <= znth (weights n) k <= 64.
Proof.
  unfold znth. destruct (nth_in_or_default (Z.to_nat k) (weights n) 0) as [H| ->]; [|lia].
  assert (forallb (fun w => (0 <=? w) && (w <=? 64)) (weights n) = true) as F.
  { unfold weights. destruct (n =? 2); [reflexivity|]. destruct (n =? 3); reflexivity. }
  rewrite forallb_forall in F. apply F in H. lia.
Qed.

Lemma weight1_range b t : 0 <= weight1 b t <= 64.
Proof. apply weights_range. Qed.
Lemma weight2_range b t : 0 <= weight2 b t <= 64.
Proof. unfold weight2. destruct (_ =? 0); [apply weight1_range|apply weights_range]. Qed.

Lemma lerp64_byte x y w : is_byte x -> is_byte y -> 0 <= w <= 64 -> is_byte (lerp64 x y w).
Proof.
  unfold is_byte, lerp64. intros.
  assert (0 <= x * (64 - w) <= 255 * (64 - w)) by (split; [apply Z.mul_nonneg_nonneg|apply Z.mul_le_mono_nonneg_r]; lia).
  assert (0 <= y * w <= 255 * w) by (split; [apply Z.mul_nonneg_nonneg|apply Z.mul_le_mono_nonneg_r]; lia).
  dlia.
Qed.

Lemma bc7_channel_byte b c t : bc7_mode b <> 8 -> bc7_mode b < 8 -> is_byte (bc7_channel b c t).
Proof.
  intros H8 H. pose proof (bc7_mode_nonneg b) as H0.
  destruct (mode_facts (bc7_mode b) (conj H0 H)) as (_ & _ & _ & _ & Fpp & Fcp & Fc & Fa & _).
  unfold bc7_channel. apply lerp64_byte.
  1,2: unfold channel_endpoint; destruct (c =? 3); [destruct (Z.eqb_spec (AB (bc7_mode b)) 0); [unfold is_byte; lia|]|];
    (refine (proj1 (endpoint_byte Checked b (bc7_mode b) _ _ _ _ _ _)); lia).
  destruct (c =? 3); unfold alpha_weight, color_weight; destruct (bc7_isel b =? 1); auto using weight1_range, weight2_range.
Qed.

Lemma bc7_opaque b t : bc7_mode b <= 3 -> alpha (bc7_texel b t) = 255.
Proof.
  intros Hm. pose proof (bc7_mode_nonneg b) as H0. assert (0 <= bc7_mode b < 4) as B by lia.
  pose proof (fun c => bc7_channel_byte b c t ltac:(lia) ltac:(lia)) as Hc.
  unfold bc7_texel. destruct (Z.eqb_spec (bc7_mode b) 8); [lia|].
  assert (bc7_rot b = 0) as ->.
  { unfold bc7_rot. assert (RB (bc7_mode b) = 0) as ->; [|apply bits_zero].
    clear - B. revert B. generalize (bc7_mode b). intros x B. enum x B; reflexivity. }
  cbv zeta. change (0 =? 0) with true. cbv iota.
  assert (bc7_channel b 3 t = 255) as ->.
  { unfold bc7_channel, channel_endpoint. change (3 =? 3) with true. cbv iota.
    assert (AB (bc7_mode b) = 0) as ->.
    { clear - B. revert B. generalize (bc7_mode b). intros x B. enum x B; reflexivity. }
    change (0 =? 0) with true. cbv iota. generalize (alpha_weight b t). intros w. unfold lerp64. clear. dlia. }
  pose proof (Hc 0). pose proof (Hc 1). pose proof (Hc 2). apply chan_rgba; auto.
Qed.

Lemma bc7_total m data outbuf : bytes data -> 16 <= zlen data -> 16 <= zlen outbuf ->
  exists out, decode_bc7_block m data outbuf = Ok out.
Proof. intros. eexists. apply bc7_block_ok; auto. Qed.

Lemma bc7_reserved m data outbuf : bytes data -> 16 <= zlen data -> 16 <= zlen outbuf -> znth data 0 = 0 ->
  decode_bc7_block m data outbuf = Ok (repeat 0 16 ++ skipn 16 outbuf).
Proof.
  intros Hb Hd Ho H0. rewrite bc7_block_ok by auto.
  assert (bc7_mode data = 8) as M by (apply (proj1 (bc7_mode_first_byte data Hb ltac:(lia))); auto).
  rewrite (tab_ext 16 _ (fun _ => 0)); [reflexivity|]. intros i _. unfold bc7_texel. rewrite M. reflexivity.
Qed.

Lemma opaque_sweep : all_below 256 (fun x => (x mod 16 =? 0) || (bc7_mode [x] <=? 3)) = true.
Proof. vm_cast_no_check (eq_refl true). Qed.

Lemma bc7_opaque_block m data outbuf : bytes data -> 16 <= zlen data -> 16 <= zlen outbuf ->
  znth data 0 mod 16 <> 0 ->
  exists out, decode_bc7_block m data outbuf = Ok out /\ forall t, 0 <= t < 16 -> alpha (znth out t) = 255.
Proof.
  intros Hb Hd Ho H0. eexists. split; [apply bc7_block_ok; auto|]. intros t Ht.
  rewrite znth_tab_app by auto. apply bc7_opaque. rewrite bc7_mode_byte by (auto; lia).
  pose proof (all_below_spec _ _ opaque_sweep _ (bytes_znth data 0 Hb)) as S. cbv beta in S. lia.
Qed.
