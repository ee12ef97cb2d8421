(** * The image decoders on dimensions whose size computations overflow *)
From Verif Require Import Base BaseLemmas ModelColor SpecImage ProofDecoder SpecBc ProofBc ProofBlock ModelBc ModelEtc ModelBc7 SpecFormats ProofImage ProofNoErr.

Lemma slice_from_inv {A} (l r : list A) a : slice_from l a = Ok r -> 0 <= a <= zlen l.
Proof.
  unfold slice_from. destruct (Z.leb_spec 0 a); cbn [andb]; [|discriminate].
  destruct (Z.leb_spec a (zlen l)); [lia|discriminate].
Qed.

(** A loop over [nx] x [ny] blocks that ends normally has had data for all but
    the last of them. *)
Section Loop.
Context (m : build) (raw : Z) (bd : list Z -> list Z -> res (list Z)) (data : list Z) (w h : Z).
Hypothesis Hraw : 0 < raw <= 16.
Hypothesis Hdata : zlen data < 2 ^ 63.

Definition body (by_ bx : Z) (st : list Z * list Z * Z) : res (list Z * list Z * Z) :=
  let '(buffer, image, data_offset) := st in
  let* d := slice_from data data_offset in
  let* buffer := bd d buffer in
  let* image := copy_block_buffer m bx by_ w h 4 4 buffer image in
  let* data_offset := ua m 64 (data_offset + raw) in
  Ok (buffer, image, data_offset).

Definition consumed (k : Z) (st : list Z * list Z * Z) : Prop :=
  snd st = raw * k /\ (k = 0 \/ raw * (k - 1) <= zlen data).

Lemma body_step by_ bx k st st' : 0 <= k -> consumed k st -> body by_ bx st = Ok st' -> consumed (k + 1) st'.
Proof.
  intros Hk [Ho _] E. destruct st as [[b i] o]. cbn [snd] in Ho. subst o. unfold body in E.
  apply bind_ok_inv in E as (d & E1 & E). apply slice_from_inv in E1.
  apply bind_ok_inv in E as (b' & _ & E). apply bind_ok_inv in E as (i' & _ & E).
  rewrite ua_ok in E by lia. cbn [bind] in E. injection E as <-.
  split; cbn [snd]; [lia|]. right. replace (k + 1 - 1) with k by lia. lia.
Qed.

Lemma loop_end nx ny st st' : 0 <= nx -> 0 <= ny -> consumed 0 st ->
  for_range 0 ny (fun by_ st => for_range 0 nx (body by_) st) st = Ok st' -> consumed (ny * nx) st'.
Proof.
  intros Hx Hy H0 E.
  refine (for_range_ok_inv (fun j s => consumed (j * nx) s) 0 ny _ st st' Hy H0 _ E).
  intros j s s' Hj Hs E'.
  replace ((j + 1) * nx) with (j * nx + nx) by lia.
  assert (consumed (j * nx + 0) s) as Hs' by (rewrite Z.add_0_r; auto).
  refine (for_range_ok_inv (fun k s => consumed (j * nx + k) s) 0 nx _ s s' Hx Hs' _ E').
  intros k t t' Hk Ht E2. rewrite Z.add_assoc. apply (body_step j k (j * nx + k) t t'); auto.
  assert (0 <= j * nx) by (apply Z.mul_nonneg_nonneg; lia). lia.
Qed.

Lemma loop_ne nx ny st : (forall d b, no_err (bd d b)) ->
  no_err (for_range 0 ny (fun by_ st => for_range 0 nx (body by_) st) st).
Proof.
  intros Hb. apply ne_for_range. intros j s. apply ne_for_range. intros k [[b i] o]. unfold body.
  apply ne_bind; [apply ne_slice_from|]. intros d. apply ne_bind; [apply Hb|]. intros b'.
  apply ne_bind; [apply ne_copy_block|]. intros i'. apply ne_bind; [apply ne_ua|]. intros; apply ne_ok.
Qed.
End Loop.

Lemma ua_over m w x : 0 <= w -> 2 ^ w <= x -> ua m w x = match m with Checked => Panic | Wrapping => Ok (x mod 2 ^ w) end.
Proof. intros Hw H. unfold ua. destruct (Z.leb_spec 0 x); [|lia]. destruct (Z.ltb_spec x (2 ^ w)); [lia|]. auto. Qed.
Lemma ua_wrap w x : 0 <= w -> ua Wrapping w x = Ok (x mod 2 ^ w).
Proof.
  intros Hw. unfold ua. destruct (_ && _) eqn:E; auto. f_equal. symmetry. apply Z.mod_small.
  apply andb_prop in E as [E1 E2]. apply Z.leb_le in E1. apply Z.ltb_lt in E2. lia.
Qed.

Lemma blocks_lt n : 0 <= n < 2 ^ 64 -> 0 <= blocks n 4 <= 2 ^ 62.
Proof. intros. unfold blocks. change (2 ^ 64) with (4 * 2 ^ 62) in *. split; [apply Z.div_pos; lia|]. assert ((n + 4 - 1) / 4 < 2 ^ 62 + 1) by (apply Z.div_lt_upper_bound; lia). lia. Qed.
Lemma blocks_cover n : 0 <= n -> n <= 4 * blocks n 4.
Proof. intros. unfold blocks. pose proof (Z.div_mod (n + 4 - 1) 4 ltac:(lia)). pose proof (Z.mod_pos_bound (n + 4 - 1) 4 ltac:(lia)). lia. Qed.

Lemma area_fits raw (data : list Z) w h : 8 <= raw -> 0 <= w < 2 ^ 64 -> 0 <= h < 2 ^ 64 -> zlen data < 2 ^ 63 ->
  blocks w 4 * blocks h 4 * raw <= zlen data -> w * h < 2 ^ 64.
Proof.
  intros Hr Hw Hh Hd Hn. pose proof (blocks_cover w ltac:(lia)). pose proof (blocks_cover h ltac:(lia)).
  pose proof (blocks_lt w Hw). pose proof (blocks_lt h Hh).
  assert (w * h <= 4 * blocks w 4 * (4 * blocks h 4)) by (apply Z.mul_le_mono_nonneg; lia).
  assert (0 <= blocks w 4 * blocks h 4) by (apply Z.mul_nonneg_nonneg; lia).
  assert (blocks w 4 * blocks h 4 * 8 <= blocks w 4 * blocks h 4 * raw) by (apply Z.mul_le_mono_nonneg_l; lia).
  change (2 ^ 64) with (2 * 2 ^ 63). lia.
Qed.

Lemma formats_raw m raw bd dec : In (raw, bd, dec) (formats m) -> raw = 8 \/ raw = 16.
Proof. intros H. unfold formats in H. cbn [In] in H. intuition (match goal with E : (_, _, _) = _ |- _ => injection E as <- _ _ end; auto). Qed.

Lemma sizes_code m raw bd dec data w h image :
  In (raw, bd, dec) (formats m) -> bytes data -> zlen data < 2 ^ 63 -> 4 * zlen image < 2 ^ 63 ->
  0 <= w < 2 ^ 64 -> 0 <= h < 2 ^ 64 ->
  let need := blocks w 4 * blocks h 4 * raw in
  (need <= zlen data -> sane raw data w h image) /\
  (zlen data < need < 2 ^ 64 -> dec data w h image = Ok (Failed "Not enough data to decode image!", image)) /\
  (2 ^ 64 <= need ->
     dec data w h image =
     match m with
     | Checked => Panic
     | Wrapping =>
         if zlen data <? need mod 2 ^ 64 then Ok (Failed "Not enough data to decode image!", image)
         else if zlen image <? (w * h) mod 2 ^ 64 then Ok (Failed "Image buffer is too small!", image)
         else Panic
     end).
Proof.
  intros H Hb Hd Hi Hw Hh need. pose proof (formats_raw _ _ _ _ H) as Hr.
  destruct (formats_impl _ _ _ _ H) as (Hr' & -> & _).
  pose proof (blocks_lt w Hw) as Bw. pose proof (blocks_lt h Hh) as Bh.
  assert (0 <= blocks w 4 * blocks h 4) as Hn by (apply Z.mul_nonneg_nonneg; lia).
  split; [|split].
  - intros L. split; [auto|]. split; [auto|]. split; [auto|]. split; [auto|].
    split; [fold need; lia|]. apply (area_fits raw data); auto; lia.
  - intros [L1 L2]. unfold block_decoder.
    rewrite !div_ceil_eq by lia. fold (blocks w 4) (blocks h 4).
    assert (blocks w 4 * blocks h 4 <= need) by (unfold need; nia).
    rewrite ua_ok by lia. cbn [bind]. rewrite ua_ok by (fold need; lia). cbn [bind]. fold need.
    destruct (Z.ltb_spec (zlen data) need); [auto|lia].
  - intros L. unfold block_decoder. rewrite !div_ceil_eq by lia. fold (blocks w 4) (blocks h 4).
    destruct m.
    + unfold ua at 1. destruct (Z.leb_spec 0 (blocks w 4 * blocks h 4)); [|lia]. cbn [andb].
      destruct (Z.ltb_spec (blocks w 4 * blocks h 4) (2 ^ 64)); [|auto]. cbn [bind]. fold need.
      rewrite ua_over by lia. auto.
    + rewrite ua_wrap by lia. cbn [bind]. rewrite ua_wrap by lia. cbn [bind].
      rewrite Z.mul_mod_idemp_l by lia. fold need.
      destruct (Z.ltb_spec (zlen data) (need mod 2 ^ 64)); [auto|].
      rewrite ua_wrap by lia. cbn [bind].
      destruct (Z.ltb_spec (zlen image) ((w * h) mod 2 ^ 64)); [auto|].
      match goal with |- bind ?X _ = _ => assert (no_err X) as NE; [|destruct X as [st'|e|] eqn:E] end.
      { exact (loop_ne Wrapping raw bd data w h (blocks w 4) (blocks h 4) _
          (proj1 (Forall_forall _ _) (formats_ne Wrapping) _ H)). }
      * exfalso.
        assert (consumed raw data 0 (repeat (color 0 0 0 255) (Z.to_nat (4 * 4)), image, 0)) as Hst by (split; cbn [snd]; lia).
        destruct (loop_end Wrapping raw bd data w h Hr' Hd (blocks w 4) (blocks h 4) _ st' ltac:(lia) ltac:(lia) Hst E) as (_ & [C|C]).
        { unfold need in L. lia. }
        unfold need in L. lia.
      * exfalso. apply (NE e). auto.
      * auto.
Qed.

(** ** What the four block functions do to words past the sixteenth *)
Lemma index3_past b o t : bytes b -> 16 <= t -> index3 b o t = 0.
Proof.
  intros Hb Ht. unfold index3.
  pose proof (bytes_znth b (o + 2) Hb). pose proof (bytes_znth b (o + 3) Hb). pose proof (bytes_znth b (o + 4) Hb).
  pose proof (bytes_znth b (o + 5) Hb). pose proof (bytes_znth b (o + 6) Hb). pose proof (bytes_znth b (o + 7) Hb).
  rewrite Z.div_small; [auto|]. split; [lia|].
  apply Z.lt_le_trans with (8 ^ 16); [change (8 ^ 16) with 281474976710656; lia|]. apply Z.pow_le_mono_r; lia.
Qed.
Lemma interp8_past b o t : bytes b -> 16 <= t -> interp8 b o t = znth b o.
Proof. intros. unfold interp8. rewrite index3_past by auto. reflexivity. Qed.

Lemma set_alpha_chans p v : is_u32 p -> is_byte v ->
  red (set_chan 3 p v) = red p /\ green (set_chan 3 p v) = green p /\ blue (set_chan 3 p v) = blue p /\ alpha (set_chan 3 p v) = v.
Proof.
  intros Hp Hv. destruct (chans_byte p) as (R & G & B & A). rewrite (rgba_chans p Hp) at 1 3 5 7.
  rewrite set_chan_3 by auto. apply chan_rgba; auto.
Qed.

Lemma overrun_code m data outbuf : bytes data -> 16 <= zlen data -> 16 <= zlen outbuf -> Forall is_u32 outbuf ->
  exists o3 o4 o5 oa,
    decode_bc3_block m data outbuf = Ok o3 /\ decode_bc4_block m data outbuf = Ok o4 /\
    decode_bc5_block m data outbuf = Ok o5 /\ decode_atc_rgba8_block m data outbuf = Ok oa /\
    forall t, 16 <= t < zlen outbuf ->
      let p := znth outbuf t in
      (red (znth o3 t) = red p /\ green (znth o3 t) = green p /\ blue (znth o3 t) = blue p /\ alpha (znth o3 t) = znth data 0) /\
      (red (znth o4 t) = znth data 0 /\ green (znth o4 t) = green p /\ blue (znth o4 t) = blue p /\ alpha (znth o4 t) = alpha p) /\
      (red (znth o5 t) = znth data 0 /\ green (znth o5 t) = znth data 8 /\ blue (znth o5 t) = blue p /\ alpha (znth o5 t) = alpha p) /\
      (red (znth oa t) = red p /\ green (znth oa t) = green p /\ blue (znth oa t) = blue p /\ alpha (znth oa t) = znth data 0).
Proof.
  intros Hb Hd Ho Hu.
  destruct (bc4_block_chan m data outbuf Hb ltac:(lia) Hu) as (o4 & E4 & _ & H4).
  destruct (bc5_block_chan m data outbuf Hb Hd Hu) as (o5 & E5 & _ & H5).
  do 4 eexists. split; [apply bc3_block_gen; auto|]. split; [exact E4|]. split; [exact E5|].
  split; [apply atc_rgba8_block_gen; auto|].
  intros t Ht p. specialize (H4 t ltac:(lia)). specialize (H5 t ltac:(lia)).
  rewrite !znth_tab by lia. destruct (Z.ltb_spec t 16); [lia|].
  rewrite !interp8_past in * by (auto; lia).
  pose proof (u32_znth outbuf t Hu ltac:(lia)) as Hp. fold p in Hp, H4, H5 |- *.
  pose proof (set_alpha_chans p (znth data 0) Hp (bytes_znth data 0 Hb)).
  repeat (split; [assumption|]). assumption.
Qed.
