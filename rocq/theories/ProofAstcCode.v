(** * ASTC: colours, weights and texels of any block with a mode *)
From Verif Require Import Base BaseLemmas BitLemmas FieldLemmas SpecBits ModelColor ModelBits ProofDecoder ProofBits ProofPvrInfo ProofOversize ModelAstc SpecAstc SpecAstcCode ProofAstcSeq ProofAstcParams ProofAstcEnd ProofAstcWeights ProofAstcRange ProofAstcColor ProofNoErr ProofAstcNoErr ProofAstcBlock ProofAstcCodeParams.

(** Every step of a loop that ends was taken. *)
Lemma for_range_each {S} n (f : Z -> S -> res S) s s' : for_range 0 n f s = Ok s' ->
  forall i, 0 <= i < n -> exists a b, f i a = Ok b.
Proof.
  intros E i Hi.
  refine (for_range_ok_inv (fun k _ => forall i, 0 <= i < k -> exists a b, f i a = Ok b) 0 n f s s' ltac:(lia) _ _ E i Hi); [intros; lia|].
  clear. intros k a b Hk H E i Hi. destruct (Z.eq_dec i k) as [->|]; [eauto|]. apply H. lia.
Qed.

(** ** Words below bit 0 *)
Lemma getbits64_wrap data bit len : bytes data -> 8 <= zlen data -> -1000 <= bit <= 0 -> 1 <= len <= 63 ->
  getbits64 Wrapping data bit len = Ok ((le_bytes data * 2 ^ ((- bit) mod 64)) mod 2 ^ len).
Proof.
  intros Hb Hl Hbit Hlen. unfold getbits64. rewrite mask64 by lia. cbn [bind].
  destruct (Z.eqb_spec len 0) as [->|]; [lia|].
  destruct (Z.leb_spec 64 bit); [lia|]. destruct (Z.leb_spec bit 0); [|lia].
  rewrite word64_ok by (auto; lia). cbn [bind].
  assert (u64 (- u64 bit) = - bit) as ->.
  { unfold u64. change (2 ^ 64) with 18446744073709551616. dlia. }
  pose proof (Z.mod_pos_bound (- bit) 64 ltac:(lia)) as R. 
  assert (ushl Wrapping 64 (bits data (8 * 0) 64) (- bit) = Ok ((bits data (8 * 0) 64 * 2 ^ ((- bit) mod 64)) mod 2 ^ 64)) as ->.
  { unfold ushl, sh_amt. destruct (Z.leb_spec 0 (- bit)); [|lia]. destruct (Z.ltb_spec (- bit) 64); cbn [andb bind].
    - rewrite (Z.mod_small (- bit) 64) by lia. rewrite shl_mul by lia. reflexivity.
    - rewrite shl_mul by lia. reflexivity. }
  cbn [bind]. rewrite land_mask by lia. f_equal. change (8 * 0) with 0. unfold bits. rewrite Z.pow_0_r, Z.div_1_r.
  set (s := (- bit) mod 64) in *. assert (2 ^ 64 = 2 ^ len * 2 ^ (64 - len)) as E64 by (rewrite <- Z.pow_add_r by lia; f_equal; lia).
  pose proof (pow_pos len ltac:(lia)). pose proof (pow_pos (64 - len) ltac:(lia)).
  assert (forall x, (x mod 2 ^ 64) mod 2 ^ len = x mod 2 ^ len) as MM.
  { intros x. rewrite E64. rewrite Z.rem_mul_r by lia. rewrite Z.mul_comm, Z.mod_add by lia. apply Z.mod_mod; lia. }
  rewrite MM. rewrite Z.mul_mod by lia. rewrite MM. rewrite <- Z.mul_mod by lia. reflexivity.
Qed.

Lemma block_entry_range k n D j : 0 <= n -> 0 <= j < per_block k ->
  0 <= fst (block_entry k n D j) < 2 ^ n /\ 0 <= snd (block_entry k n D j) < radix_digits k.
Proof.
  intros Hn Hj. unfold block_entry. cbn [fst snd]. split; [apply bfield_range; auto|].
  apply digits_range; [apply packed_range; auto|auto].
Qed.

(** ** Weights from a decoded sequence *)
Lemma weights_from m buf k n count d sq ent : In (k, n) weight_quants ->
  0 <= bp_weight_range d < 16 -> znth WEIGHT_PREC_TABLE_A (bp_weight_range d) = radix_code k ->
  znth WEIGHT_PREC_TABLE_B (bp_weight_range d) = n -> bp_weight_num d = count -> 0 <= count <= 128 ->
  decode_intseq m buf 128 (radix_code k) n count true (repeat (0, 0) 128) = Ok sq ->
  filled (0, 0) (repeat (0, 0) 128) sq count ent ->
  (forall i, 0 <= i -> 0 <= fst (ent i) < 2 ^ n /\ 0 <= snd (ent i) < radix_digits k) ->
  exists wv, weight_values m buf d = Ok wv /\ zlen wv = 128 /\
    forall i, 0 <= i -> znth wv i = if i <? count then weight_value k n (ent i) else 0.
Proof.
  intros I R TA TB En Hc ES [F1 F2] Hent. unfold weight_values. rewrite En.
  rewrite (idx_ok WEIGHT_PREC_TABLE_A), TA by (change (zlen WEIGHT_PREC_TABLE_A) with 16; lia). cbn [bind].
  rewrite (idx_ok WEIGHT_PREC_TABLE_B), TB by (change (zlen WEIGHT_PREC_TABLE_B) with 16; lia). cbn [bind].
  rewrite ES. cbn [bind].
  destruct (for_range_inv (fun i wv => filled 0 (repeat 0 128) wv i (fun i => weight_value k n (ent i))) 0 count
    (fun i wv => let* s := idx sq i in let* w := unquant_weight m (radix_code k) n s in upd wv i w) (repeat 0 128)) as (wv & E & G).
  { lia. } { apply filled_0. }
  { intros i wv Hi F. rewrite (idx_ok_d (0, 0)) by (rewrite F1; change (zlen (repeat (0, 0) 128)) with 128; lia). cbn [bind].
    rewrite F2 by lia. destruct (Z.ltb_spec i count); [|lia].
    destruct (Hent i ltac:(lia)) as [R1 R2].
    destruct (unquant_weight_ok m k n _ I R1 R2) as [-> _]. cbn [bind].
    rewrite upd_ok by (destruct F as [-> _]; change (zlen (repeat 0 128)) with 128; lia).
    eexists; split; [reflexivity|]. apply (filled_step 0 (repeat 0 128) wv i (fun i => weight_value k n (ent i))); auto. change (zlen (repeat 0 128)) with 128; lia. }
  rewrite E. exists wv. split; auto. destruct G as [G1 G2]. split; [exact G1|].
  intros i Hi. unfold znth. rewrite G2 by auto. destruct (Z.ltb_spec i count); auto.
  destruct (Nat.lt_ge_cases (Z.to_nat i) 128); [apply nth_repeat|apply nth_overflow; rewrite repeat_length; auto].
Qed.

(** ** Sequences of plain bits that leave the buffer *)
Lemma plain_read m buf offset b count (reverse : bool) out o : 0 <= b <= 8 -> 0 <= count <= 128 ->
  (if reverse then offset = 128 else 0 <= offset <= 128) -> zlen buf < 2 ^ 60 ->
  decode_intseq m buf offset 0 b count reverse out = Ok o ->
  if reverse then b * count <= 128 else offset + b * count <= 8 * zlen buf \/ count = 0.
Proof.
  intros Hb Hc Ho Hl E. unfold decode_intseq in E.
  destruct (Z.eqb_spec count 0) as [->|]; [destruct reverse; auto; lia|].
  change (0 =? 3) with false in E. change (0 =? 5) with false in E. cbv iota in E.
  apply bind_ok_inv in E as ([o' p'] & E & _).
  set (R := fun n : Z => if reverse then b * n <= 128 else offset + b * n <= 8 * zlen buf \/ n = 0).
  enough (R count) by (unfold R in *; auto).
  enough (R count /\ p' = if reverse then offset - b - b * count else offset + b * count) by tauto.
  refine (for_range_ok_inv (fun n (st : list (Z * Z) * Z) => R n /\ snd st = if reverse then offset - b - b * n else offset + b * n) 0 count _ _ (o', p') ltac:(lia) _ _ E).
  { cbn [snd]. unfold R. split; destruct reverse; auto; lia. }
  clear E o' p' n. intros n [q p] [q' p'] Hn [_ Hp] E. cbn [snd] in Hp. cbv beta iota in E.
  apply bind_ok_inv in E as (g & Eg & E). apply bind_ok_inv in E as (v & _ & E). apply bind_ok_inv in E as (q2 & _ & E).
  assert (p' = if reverse then p - b else p + b) as -> by congruence. cbn [snd].
  assert (0 <= b * n <= 8 * 128) as Bn by (split; [apply Z.mul_nonneg_nonneg; lia|apply Z.mul_le_mono_nonneg; lia]).
  split; [|rewrite Hp; destruct reverse; lia].
  unfold R. destruct reverse.
  - destruct (Z.le_gt_cases 0 p) as [|Hneg]; [lia|]. exfalso. unfold u64 in Eg.
    replace (p mod 2 ^ 64) with (2 ^ 64 + p) in Eg by (apply Z.mod_unique with (-1); change (2 ^ 64) with 18446744073709551616; lia).
    rewrite getbits_below in Eg by (auto; lia). discriminate.
  - left. destruct (Z.le_gt_cases (p + b) (8 * zlen buf)) as [|Hbig]; [lia|]. exfalso.
    unfold u64 in Eg. rewrite Z.mod_small in Eg by (change (2 ^ 64) with 18446744073709551616; lia).
    rewrite getbits_panic in Eg; try lia; discriminate.
Qed.

(** Bytes read from anywhere in the buffer. *)
Lemma bytes_seq_ok m buf offset count out : bytes buf -> zlen buf < 2 ^ 60 -> 0 <= offset -> 0 <= count <= zlen out ->
  offset + 8 * count <= 8 * zlen buf ->
  exists o, decode_intseq m buf offset 0 8 count false out = Ok o /\
    filled (0, 0) out o count (seq_entry Bits 8 (bfield (le_bytes buf) offset (8 * count))).
Proof.
  intros Hb Hl Ho Hc Hend. unfold decode_intseq. destruct (Z.eqb_spec count 0) as [->|N0]; [exists out; split; auto; apply filled_0|].
  change (0 =? 3) with false. change (0 =? 5) with false. cbv iota.
  set (sq := bfield (le_bytes buf) offset (8 * count)).
  destruct (for_range_inv (fun n (st : list (Z * Z) * Z) => snd st = offset + 8 * n /\ filled (0, 0) out (fst st) n (seq_entry Bits 8 sq)) 0 count
    (fun n '(out, p) =>
        let* g := getbits m buf (u64 p) 8 in
        let* v := if false then bit_reverse_u8 m (u8 g) (u8 8) else Ok (u64 g) in
        let* out := upd out n (v, 0) in
        Ok (out, if false then p - 8 else p + 8)) (out, offset)) as ([o p] & E & _ & F).
  - lia.
  - cbn [fst snd]. split; [lia|apply filled_0].
  - intros n [o p] Hn [Hp F]. cbn [fst snd] in *. subst p. change (2 ^ 60) with 1152921504606846976 in *.
    assert (u64 (offset + 8 * n) = offset + 8 * n) as -> by (unfold u64; rewrite Z.mod_small by (change (2 ^ 64) with 18446744073709551616; lia); reflexivity).
    rewrite getbits_ok by (auto; pose proof (Z.mod_pos_bound (offset + 8 * n) 8); lia).
    cbn [bind]. pose proof (bfield_range (le_bytes buf) (offset + 8 * n) 8 ltac:(lia)) as BR. change (bfield (le_bytes buf) (offset + 8 * n) 8) with (bits buf (offset + 8 * n) 8) in BR. change (2 ^ 8) with 256 in BR.
    assert (u64 (bits buf (offset + 8 * n) 8) = bits buf (offset + 8 * n) 8) as -> by (unfold u64; apply Z.mod_small; change (2 ^ 64) with 18446744073709551616; lia).
    rewrite upd_ok by (destruct F as [-> _]; lia). cbn [bind]. eexists; split; [reflexivity|]. cbn [fst snd]. split; [lia|].
    assert (seq_entry Bits 8 sq n = (bits buf (offset + 8 * n) 8, 0)) as <-.
    { unfold seq_entry. change (per_block Bits) with 1. rewrite Z.div_1_r, Z.mod_1_r.
      change (block_size Bits 8) with 8. change (before Bits 0) with 0. cbn [digits]. change (znth [0] 0) with 0. f_equal.
      change (0 * 8 + 0) with 0. unfold sq. rewrite !bfield_bfield by lia. unfold bits. change (le_bytes buf / 2 ^ (offset + 8 * n) mod 2 ^ 8) with (bfield (le_bytes buf) (offset + 8 * n) 8). f_equal; lia. }
    apply filled_step; auto. lia.
  - rewrite E. cbn [bind fst] in *. exists o. auto.
Qed.

(** ** The colour range *)
Lemma code_quant_fit n room : 0 <= n <= 32 ->
  In (code_quant n room) code_quants /\
  (seq_size (fst (code_quant n room)) (snd (code_quant n room)) n <= room \/ code_quant n room = (Bits, 8)).
Proof.
  intros Hn. unfold code_quant. destruct (find _ code_quants) as [q|] eqn:EF.
  - pose proof (find_some _ _ EF) as [I L]. split; auto. left. destruct q. apply Z.leb_le in L. exact L.
  - split; auto. left. reflexivity.
Qed.
Lemma code_cem W l : code_ok W l -> cem_layout l.
Proof.
  intros CO. constructor; try apply CO. rewrite (co_cq _ _ CO). apply code_quant_fit. apply CO.
Qed.

(** ** The infill at the last texel *)
Definition footprint_sides : list Z := [4; 5; 6; 8; 10; 12].
Definition last_check (n : Z) : bool :=
  forallb (fun w => Z.shiftr (Z.shiftr ((1024 + n / 2) / (n - 1) * (n - 1) * (w - 1) + 32) 6) 4 =? w - 1) [2; 3; 4; 5; 6; 7; 8; 9; 10; 11; 12].
Lemma last_sweep : forallb last_check footprint_sides = true.
Proof. vm_cast_no_check (eq_refl true). Qed.
Lemma last_cell n w : In n footprint_sides -> 2 <= w <= 12 ->
  Z.shiftr (Z.shiftr ((1024 + n / 2) / (n - 1) * (n - 1) * (w - 1) + 32) 6) 4 = w - 1.
Proof.
  intros I Hw. pose proof last_sweep as S. rewrite forallb_forall in S. apply S in I. unfold last_check in I.
  rewrite forallb_forall in I. apply Z.eqb_eq. apply I. cbn [In]. lia.
Qed.
Lemma sides_range n : In n footprint_sides -> 4 <= n <= 12.
Proof. intros I. cbn [In footprint_sides] in I. lia. Qed.

Lemma idx_inv {A} (l : list A) i a : idx l i = Ok a -> 0 <= i < zlen l.
Proof.
  unfold idx. destruct (Z.leb_spec 0 i); [|discriminate]. destruct (nth_error l (Z.to_nat i)) eqn:E; [|discriminate].
  intros _. assert (nth_error l (Z.to_nat i) <> None) as N by congruence. apply nth_error_Some in N. unfold zlen. lia.
Qed.

Lemma infill_read m bw bh width height wv ws :
  In bw footprint_sides -> In bh footprint_sides -> 2 <= width <= 12 -> 2 <= height <= 12 -> zlen wv = 128 ->
  infill_weights m bw bh width height true wv = Ok ws -> width * (height + 1) <= 63.
Proof.
  intros Iw Ih Hw Hh Lw E. pose proof (sides_range _ Iw) as Rw. pose proof (sides_range _ Ih) as Rh.
  pose proof (last_cell bw width Iw Hw) as Cw. pose proof (last_cell bh height Ih Hh) as Ch.
  unfold infill_weights in E. rewrite ua_ok in E by lia. cbn [bind] in E. destruct (Z.eqb_spec (bw - 1) 0); [lia|]. cbn [bind] in E.
  rewrite ua_ok in E by lia. cbn [bind] in E. destruct (Z.eqb_spec (bh - 1) 0); [lia|]. cbn [bind] in E.
  apply bind_ok_inv in E as (st & E & _).
  destruct (for_range_each _ _ _ _ E (bh - 1) ltac:(lia)) as (s1 & s2 & E1). clear E. cbv beta in E1.
  destruct (for_range_each _ _ _ _ E1 (bw - 1) ltac:(lia)) as ([w0 i0] & s4 & E2). clear E1. cbv beta iota in E2.
  set (ds := (1024 + bw / 2) / (bw - 1)) in *. set (dt := (1024 + bh / 2) / (bh - 1)) in *.
  assert (0 <= bw / 2 <= 6) by (split; [apply Z.div_pos; lia|apply Z.div_le_upper_bound; lia]).
  assert (0 <= bh / 2 <= 6) by (split; [apply Z.div_pos; lia|apply Z.div_le_upper_bound; lia]).
  assert (0 <= ds <= 1060) as Bds by (unfold ds; split; [apply Z.div_pos; lia|apply Z.div_le_upper_bound; nia]).
  assert (0 <= dt <= 1060) as Bdt by (unfold dt; split; [apply Z.div_pos; lia|apply Z.div_le_upper_bound; nia]).
  assert (0 <= ds * (bw - 1) <= 1060 * 72) as B1 by (split; [apply Z.mul_nonneg_nonneg|apply Z.mul_le_mono_nonneg]; lia).
  assert (0 <= dt * (bh - 1) <= 1060 * 72) as B2 by (split; [apply Z.mul_nonneg_nonneg|apply Z.mul_le_mono_nonneg]; lia).
  assert (0 <= ds * (bw - 1) * (width - 1) <= 1060 * 72 * 11) as B3 by (split; [apply Z.mul_nonneg_nonneg|apply Z.mul_le_mono_nonneg]; lia).
  assert (0 <= dt * (bh - 1) * (height - 1) <= 1060 * 72 * 11) as B4 by (split; [apply Z.mul_nonneg_nonneg|apply Z.mul_le_mono_nonneg]; lia).
  do 8 (rewrite ua_ok in E2 by lia; cbn [bind] in E2). cbv zeta in E2. rewrite Cw, Ch in E2.
  assert (0 <= (height - 1) * width <= 11 * 12) as B5 by (split; [apply Z.mul_nonneg_nonneg|apply Z.mul_le_mono_nonneg]; lia).
  do 2 (rewrite ua_ok in E2 by lia; cbn [bind] in E2).
  apply bind_ok_inv in E2 as (w5 & E2 & _).
  destruct (for_range_each _ _ _ _ E2 0 ltac:(lia)) as (s6 & s7 & E3). clear E2.
  do 3 (apply bind_ok_inv in E3 as (? & _ & E3)). apply bind_ok_inv in E3 as (p11 & E3 & _).
  apply idx_inv in E3. lia.
Qed.

Section Code.
Context (m : build) (buf : list Z) (l : layout) (Hb : bytes buf) (Hl : 16 <= zlen buf) (Hl2 : zlen buf < 2 ^ 60).
Let W := astc_word buf.
Context (HL : code_layout W = Some l).
Let V := le_bytes buf.

Lemma word_low p n : 0 <= p -> 0 <= n -> p + n <= 128 -> bfield W p n = bfield V p n.
Proof.
  intros. unfold W, astc_word, V. change 16%nat with (Z.to_nat 16). rewrite le_firstn by (auto; lia).
  change (8 * 16) with 128. apply bfield_mod; lia.
Qed.

Lemma code_colors : code_ok W l -> let '(k, n) := l_cq l in
  (color_end l <= 8 * zlen buf ->
   exists sq, decode_intseq m buf (l_cstart l) (radix_code k) n (l_cvalues l) false (repeat (0, 0) 32) = Ok sq /\
    filled (0, 0) (repeat (0, 0) 32) sq (l_cvalues l) (seq_entry k n (bfield V (l_cstart l) (seq_size k n (l_cvalues l))))) /\
  (forall o, decode_intseq m buf (l_cstart l) (radix_code k) n (l_cvalues l) false (repeat (0, 0) 32) = Ok o ->
   color_end l <= 8 * zlen buf).
Proof.
  intros CO. pose proof (co_cvalues32 _ _ CO) as CV. pose proof (co_cstart _ _ CO) as CS. pose proof (co_extra _ _ CO) as XB.
  pose proof (co_wbits1000 _ _ CO) as WB.
  assert (17 <= l_cstart l <= 29) as S29 by (rewrite CS; destruct (l_parts l =? 1); lia).
  destruct (code_quant_fit (l_cvalues l) (layout_room W l) CV) as [IQ FT]. rewrite <- (co_cq _ _ CO) in IQ, FT.
  unfold color_end. destruct (l_cq l) as [k n]. cbn [fst snd] in *. pose proof (code_quants_ok _ _ IQ) as QO.
  assert (0 <= n) by (destruct k; cbn [quant_ok] in QO; lia).
  pose proof (seq_size_nonneg k n (l_cvalues l) ltac:(auto) ltac:(lia)) as SN.
  destruct FT as [FT|FT].
  - assert (l_cstart l + seq_size k n (l_cvalues l) <= 128) as F128 by (unfold layout_room in FT; destruct (g_dual (l_grid l)); lia).
    split; [intros _|intros; lia].
    destruct (intseq_ok m k buf (l_cstart l) (radix_code k) n (l_cvalues l) false (repeat (0, 0) 32)) as (sq & ES & F); auto.
    { destruct k; cbn [radix_code]; auto; lia. }
    { cbn [seq_fits]. lia. }
    exists sq. split; [exact ES|]. cbn [seq_bits] in F. fold W in F. rewrite word_low in F by lia. exact F.
  - assert (k = Bits) as -> by congruence. assert (n = 8) as -> by congruence. cbn [radix_code seq_size].
    split.
    + intros He. apply (bytes_seq_ok m buf (l_cstart l) (l_cvalues l) (repeat (0, 0) 32)); auto; try lia.
    + intros o E. pose proof (plain_read m buf (l_cstart l) 8 (l_cvalues l) false (repeat (0, 0) 32) o ltac:(lia) ltac:(lia) ltac:(cbv iota; lia) Hl2 E) as P.
      cbv iota in P. lia.
Qed.

(** The weights can be read: they fit, or wrap around in words of packed
    digits. *)
Definition weights_ok : Prop := l_wbits l <= 128 \/ m = Wrapping /\ fst (l_wq l) <> Bits.

Lemma code_wseq : code_ok W l -> let '(k, n) := l_wq l in
  (weights_ok ->
   exists sq, decode_intseq m buf 128 (radix_code k) n (l_wcount l) true (repeat (0, 0) 128) = Ok sq /\
    filled (0, 0) (repeat (0, 0) 128) sq (l_wcount l)
      (fun i => block_entry k n (weight_word W l (i / per_block k)) (i mod per_block k))) /\
  (forall o, decode_intseq m buf 128 (radix_code k) n (l_wcount l) true (repeat (0, 0) 128) = Ok o ->
   k = Bits -> l_wbits l <= 128).
Proof.
  intros CO. pose proof (co_wcount120 _ _ CO) as WC. pose proof (co_wbits _ _ CO) as EB. pose proof (co_wbits1000 _ _ CO) as WB.
  pose proof (co_quant _ _ CO) as Q. unfold weights_ok. destruct (l_wq l) as [k n] eqn:EQ. cbn [fst snd] in *.
  assert (forall i, weight_word W l i = let size := Z.min (block_size k n) (l_wbits l - block_size k n * i) in
    let q := 128 - block_size k n * i - size in
    rev_bits (Z.to_nat size) (if q <? 0 then (W * 2 ^ ((- q) mod 64)) mod 2 ^ size else bfield W q size)) as WE
    by (intros; unfold weight_word; rewrite EQ; reflexivity).
  pose proof (weight_quants_ok _ _ _ Q) as QO. assert (0 <= n) by (destruct k; cbn [quant_ok] in QO; lia).
  split.
  - intros HW. assert (forall i size, 0 <= block_size k n * i -> 1 <= size <= 63 -> block_size k n * i + size <= l_wbits l -> m = Wrapping \/ l_wbits l <= 128 ->
      (let* g := getbits64 m buf (128 - block_size k n * i - size) size in bit_reverse_u64 m g size) =
      Ok (rev_bits (Z.to_nat size) (if 128 - block_size k n * i - size <? 0 then (W * 2 ^ (- (128 - block_size k n * i - size) mod 64)) mod 2 ^ size
            else bfield W (128 - block_size k n * i - size) size))) as RD.
    { intros i size A1 A2 A3 HM. set (q := 128 - block_size k n * i - size) in *.
      assert (exists x, getbits64 m buf q size = Ok x /\ x = (if q <? 0 then (W * 2 ^ (- q mod 64)) mod 2 ^ size else bfield W q size) /\ 0 <= x < 2 ^ size) as (x & -> & -> & RX).
      { destruct (Z.ltb_spec q 0).
        - destruct HM as [->|]; [|lia]. rewrite getbits64_wrap by (auto; lia). eexists; split; [reflexivity|].
          split; [|apply Z.mod_pos_bound, pow_pos; lia].
          pose proof (pow_pos size ltac:(lia)).
          assert (W mod 2 ^ size = le_bytes buf mod 2 ^ size) as EM.
          { pose proof (word_low 0 size ltac:(lia) ltac:(lia) ltac:(lia)) as X. unfold bfield in X. rewrite Z.pow_0_r, !Z.div_1_r in X. exact X. }
          rewrite (Z.mul_mod W), EM, <- Z.mul_mod by lia. reflexivity.
        - rewrite getbits64_word by (auto; lia). eexists; split; [reflexivity|]. split; [reflexivity|]. apply bfield_range. lia. }
      cbn [bind]. apply bit_reverse_u64_ok; lia. }
    destruct k.
    + assert (l_wbits l <= 128) as W128 by (destruct HW as [|[_ HW]]; [auto|congruence]).
      cbn [quant_ok seq_size radix_code] in *.
      destruct (intseq_ok m Bits buf 128 0 n (l_wcount l) true (repeat (0, 0) 128)) as (sq & ES & F1 & F2); auto.
      { lia. } { change (zlen (repeat (0, 0) 128)) with 128. lia. } { cbn [seq_fits seq_size]. lia. }
      exists sq. split; [exact ES|]. split; [exact F1|]. intros i Hi. rewrite F2 by auto.
      destruct (Z.ltb_spec i (l_wcount l)); [|reflexivity]. unfold seq_entry, block_entry. cbn [seq_bits seq_size]. fold W.
      change (per_block Bits) with 1. rewrite Z.div_1_r, Z.mod_1_r. change (block_size Bits n) with (1 * n). rewrite Z.mul_1_l.
      assert (0 <= n * i /\ n * i + n <= n * l_wcount l) as [A1 A2].
      { split; [apply Z.mul_nonneg_nonneg; lia|]. transitivity (n * (i + 1)); [lia|]. apply Z.mul_le_mono_nonneg_l; lia. }
      rewrite WE, EB. change (block_size Bits n) with (1 * n). rewrite Z.mul_1_l. cbv zeta. rewrite Z.min_l by lia.
      destruct (Z.ltb_spec (128 - n * i - n) 0); [lia|].
      change 128 with (Z.of_nat 128) at 3 5. rewrite rev_field by lia. change (128 - 128) with 0.
      rewrite (bfield_bfield (rev_bits 128 W) 0 (n * l_wcount l) (n * i) n) by lia. rewrite Z.min_l by lia. rewrite Z.add_0_l. reflexivity.
    + refine (packed_seq_ok m Trits buf 128 n (l_wcount l) true (repeat (0, 0) 128) (weight_word W l) ltac:(discriminate) QO ltac:(change (zlen (repeat (0, 0) 128)) with 128; lia) _).
      intros i Hi now. destruct (packed_now Trits n (l_wcount l) i ltac:(discriminate) QO ltac:(lia) Hi) as (_ & A1 & A2 & A3). fold now in A2, A3.
      rewrite WE, EB. apply RD; auto; [lia|]. tauto.
    + refine (packed_seq_ok m Quints buf 128 n (l_wcount l) true (repeat (0, 0) 128) (weight_word W l) ltac:(discriminate) QO ltac:(change (zlen (repeat (0, 0) 128)) with 128; lia) _).
      intros i Hi now. destruct (packed_now Quints n (l_wcount l) i ltac:(discriminate) QO ltac:(lia) Hi) as (_ & A1 & A2 & A3). fold now in A2, A3.
      rewrite WE, EB. apply RD; auto; [lia|]. tauto.
  - intros o E ->. cbn [radix_code quant_ok seq_size] in *.
    pose proof (plain_read m buf 128 n (l_wcount l) true (repeat (0, 0) 128) o ltac:(lia) ltac:(lia) eq_refl Hl2 E) as P. cbv iota in P. lia.
Qed.

Definition reads_ok : Prop := params_ok m buf l /\ color_end l <= 8 * zlen buf /\
  (fst (l_wq l) = Bits -> l_wbits l <= 128) /\
  (g_dual (l_grid l) = true -> g_width (l_grid l) * (g_height (l_grid l) + 1) <= 63).

Lemma accepts_ok : code_ok W l -> code_accepts m W (zlen buf) l = true <-> reads_ok.
Proof.
  intros CO. unfold reads_ok, params_ok, below_ok, code_accepts. fold W.
  pose proof (co_cstart _ _ CO) as CS. pose proof (co_extra _ _ CO) as XB. pose proof (co_wbits1000 _ _ CO) as WB.
  assert (17 <= l_cstart l <= 29) as S29 by (rewrite CS; destruct (l_parts l =? 1); lia).
  pose proof (co_grid _ _ CO) as CG.
  rewrite andb_true_iff, orb_true_iff, !Z.leb_le.
  split.
  - intros [H1 H2]. split; [|split; [exact H1|]].
    + destruct H2 as [H2|H2]; [auto|]. right. destruct m; [discriminate|]. split; [reflexivity|].
      rewrite !andb_true_iff, !orb_true_iff, !negb_true_iff, Z.eqb_eq, !Z.leb_le in H2.
      destruct H2 as [[[H2 H3] _] _]. split; [exact H2|]. intros D. destruct H3; [congruence|auto].
    + destruct H2 as [H2|H2].
      * unfold layout_room in H2. split; [intros; destruct (g_dual (l_grid l)); lia|].
        intros D. rewrite D in *. lia.
      * destruct m; [discriminate|].
        rewrite !andb_true_iff, !orb_true_iff, !negb_true_iff, Z.eqb_eq, !Z.leb_le in H2.
        destruct H2 as [[_ H2] H3]. split.
        -- intros E. rewrite E in H2. apply Z.leb_le in H2. exact H2.
        -- intros D. destruct H3; [congruence|auto].
  - intros (H1 & H2 & H3 & H4). split; [exact H2|]. destruct H1 as [H1|[-> [H1 H5]]]; [auto|]. right.
    rewrite !andb_true_iff, !orb_true_iff, !negb_true_iff, Z.eqb_eq, !Z.leb_le. repeat split; auto.
    + destruct (g_dual (l_grid l)); auto.
    + destruct (fst (l_wq l)); auto. apply Z.leb_le; auto.
    + destruct (g_dual (l_grid l)); auto.
Qed.

Lemma code_weights_range i : code_ok W l -> 0 <= code_weights W l i <= 64.
Proof.
  intros CO. unfold code_weights. destruct (i <? l_wcount l); [|lia].
  pose proof (co_quant _ _ CO) as Q. destruct (l_wq l) as [k n]. 
  destruct (weight_quant_in _ _ _ Q) as (_ & I & _ & _ & N).
  change (bfield (weight_word W l (i / per_block k)) (i mod per_block k * n + before k (i mod per_block k)) n,
    znth (digits k (packed k n (weight_word W l (i / per_block k)))) (i mod per_block k))
    with (block_entry k n (weight_word W l (i / per_block k)) (i mod per_block k)).
  destruct (block_entry_range k n (weight_word W l (i / per_block k)) (i mod per_block k) ltac:(lia)) as [R1 R2].
  { apply Z.mod_pos_bound. destruct k; cbn; lia. }
  apply (unquant_weight_ok Checked); auto.
Qed.

Context (bw bh : Z) (Iw : In bw footprint_sides) (Ih : In bh footprint_sides).

Lemma code_not_reserved : code_ok W l -> reserved (znth buf 0) (znth buf 1) = false.
Proof.
  intros CO. pose proof (block_grid_ok buf Hb Hl) as G. cbv zeta in G. fold W in G. rewrite (co_mode _ _ CO) in G. apply G.
Qed.

Lemma code_texels : code_ok W l -> reads_ok ->
  (forall i, 0 <= i < bw * bh -> is_u32 (code_texel bw bh W V l i)) /\
  forall out, bw * bh <= zlen out -> exists o, decode_astc_block m buf bw bh out = Ok o /\
    filled 0 out o (bw * bh) (code_texel bw bh W V l).
Proof.
  intros CO (RP & RC & RW & RG). pose proof (sides_range _ Iw) as Rw. pose proof (sides_range _ Ih) as Rh.
  destruct (code_params m buf l Hb Hl HL RP) as (range & EP & CA & CB & CR). cbv zeta in EP.
  set (d := mkParams _ _ _ _ _ _ _ _ _ _) in EP.
  pose proof (code_cem _ _ CO) as CL.
  destruct (endpoints_from m buf V l d) with (sq := match decode_intseq m buf (l_cstart l) (radix_code (fst (l_cq l))) (snd (l_cq l)) (l_cvalues l) false (repeat (0, 0) 32) with Ok sq => sq | _ => [] end)
    as (eps & EE & Le & HE); auto.
  { pose proof (code_colors CO) as K. destruct (l_cq l) as [k n]. cbn [fst snd]. destruct K as [K _]. destruct (K RC) as (sq & -> & _). reflexivity. }
  { pose proof (code_colors CO) as K. destruct (l_cq l) as [k n]. cbn [fst snd]. destruct K as [K _]. destruct (K RC) as (sq & -> & F). exact F. }
  pose proof (co_width _ _ CO) as GW. pose proof (co_height _ _ CO) as GH. pose proof (co_wcount _ _ CO) as GC. pose proof (co_wcount120 _ _ CO) as GC64.
  assert (exists wv, weight_values m buf d = Ok wv /\ zlen wv = 128 /\ forall i, 0 <= i -> znth wv i = code_weights W l i) as (wv & EW & Lw & HW).
  { pose proof (code_wseq CO) as K. pose proof (co_quant _ _ CO) as Q. 
    assert (weights_ok) as WO.
    { unfold weights_ok. destruct RP as [RP|[RP _]].
      - left. fold W in RP. unfold layout_room in RP. pose proof (co_cstart _ _ CO) as CS. pose proof (co_extra _ _ CO) as XB.
        rewrite CS in RP. destruct (l_parts l =? 1), (g_dual (l_grid l)); lia.
      - destruct (fst (l_wq l)); [left; auto|right; split; [auto|discriminate]..]. }
    pose proof (co_taba _ _ CO) as TA. pose proof (co_tabb _ _ CO) as TB. pose proof (co_range _ _ CO) as GR.
    unfold code_weights. destruct (l_wq l) as [k n]. cbn [fst snd] in *. destruct K as [K _]. destruct (K WO) as (sq & ES & F).
    destruct (weight_quant_in _ _ _ Q) as (_ & I & _ & _ & N).
    refine (weights_from m buf k n (l_wcount l) d sq _ I _ TA TB _ _ ES F _); [change (bp_weight_range d) with (g_range (l_grid l)); lia|reflexivity|lia|].
    intros i Hi. apply block_entry_range; [lia|]. apply Z.mod_pos_bound. destruct k; cbn; lia. }
  assert (bw * bh <= 144) as Ha by (transitivity (12 * 12); [apply Z.mul_le_mono_nonneg|]; lia).
  destruct (infill_ok m bw bh (g_width (l_grid l)) (g_height (l_grid l)) (g_dual (l_grid l)) wv (code_weights W l)) as (ws & EI & FW); auto; try lia.
  { pose proof (co_grid _ _ CO) as CG. set (gw := g_width (l_grid l)) in *. set (gh := g_height (l_grid l)) in *.
    assert (gw * gh + gw = gw * (gh + 1)) as -> by ring. destruct (g_dual (l_grid l)); [specialize (RG eq_refl)|]; lia. }
  { intros; apply code_weights_range; auto. }
  refine (texels_from m buf bw bh l Hb Hl ltac:(lia) ltac:(lia) Ha V (code_weights W l) d eps ws _ CL _ EP eq_refl eq_refl eq_refl eq_refl EE Le HE _ _ FW).
  - apply code_not_reserved; auto.
  - change (0 <= l_plane l < 4). rewrite (co_plane _ _ CO). destruct (g_dual (l_grid l)); [|lia]. apply (bfield_range _ _ 2). lia.
  - unfold decode_weights. rewrite EW. cbn [bind]. exact EI.
  - intros; apply code_weights_range; auto.
Qed.

Lemma code_reads out o : code_ok W l -> decode_astc_block m buf bw bh out = Ok o -> reads_ok.
Proof.
  intros CO E. unfold decode_astc_block in E. rewrite (idx_ok buf 0), (idx_ok buf 1) in E by lia. cbn [bind] in E.
  pose proof (code_not_reserved CO) as NR. unfold reserved in NR.
  destruct ((znth buf 0 =? 252) && (Z.land (znth buf 1) 1 =? 1)) eqn:EV.
  { exfalso. apply andb_prop in EV as [V1 V2]. apply Z.eqb_eq in V1. rewrite V1, V2 in NR. discriminate. }
  rewrite NR in E. apply bind_ok_inv in E as (d & Ed & E).
  pose proof (params_read m buf l Hb Hl Hl2 HL d Ed) as RP.
  destruct (code_params m buf l Hb Hl HL RP) as (range & EP & CA & CB & CR). cbv zeta in EP. rewrite Ed in EP.
  set (d' := mkParams _ _ _ _ _ _ _ _ _ _) in EP. assert (d = d') as -> by congruence. clear EP Ed.
  apply bind_ok_inv in E as (eps & Ee & E). apply bind_ok_inv in E as (ws & Ew & _).
  split; [exact RP|]. split; [|].
  - unfold decode_endpoints in Ee. change (bp_cem_range d') with range in Ee. change (bp_part_num d') with (l_parts l) in Ee.
    change (bp_endpoint_value_num d') with (l_cvalues l) in Ee.
    rewrite !idx_ok in Ee by (split; [lia|]; apply Z.lt_le_trans with 19; [lia|vm_compute; discriminate]). cbn [bind] in Ee. rewrite CA, CB in Ee.
    rewrite <- (co_cstart _ _ CO) in Ee. apply bind_ok_inv in Ee as (sq & Es & _).
    pose proof (code_colors CO) as K. destruct (l_cq l) as [k n]. cbn [fst snd] in *. destruct K as [_ K]. apply (K sq Es).
  - unfold decode_weights in Ew. apply bind_ok_inv in Ew as (wv & Ev & Ei).
    pose proof (co_taba _ _ CO) as TA. pose proof (co_tabb _ _ CO) as TB. pose proof (co_range _ _ CO) as GR.
    assert (zlen wv = 128) as Lv.
    { unfold weight_values in Ev. apply bind_ok_inv in Ev as (? & _ & Ev). apply bind_ok_inv in Ev as (? & _ & Ev). apply bind_ok_inv in Ev as (sq & _ & Ev).
      pose proof (co_wcount120 _ _ CO) as WC.
      refine (for_range_ok_inv (fun _ wv => zlen wv = 128) 0 (l_wcount l) _ _ _ ltac:(lia) _ _ Ev); [reflexivity|].
      intros i s s' Hi Ls Es. apply bind_ok_inv in Es as (? & _ & Es). apply bind_ok_inv in Es as (? & _ & Es).
      apply upd_inv in Es as [_ ->]. rewrite zlen_replace_nth. exact Ls. }
    split.
    + intros EB. unfold weight_values in Ev. change (bp_weight_range d') with (g_range (l_grid l)) in Ev. change (bp_weight_num d') with (l_wcount l) in Ev.
      rewrite (idx_ok WEIGHT_PREC_TABLE_A), TA in Ev by (change (zlen WEIGHT_PREC_TABLE_A) with 16; lia). cbn [bind] in Ev.
      rewrite (idx_ok WEIGHT_PREC_TABLE_B), TB in Ev by (change (zlen WEIGHT_PREC_TABLE_B) with 16; lia). cbn [bind] in Ev.
      apply bind_ok_inv in Ev as (sq & Es & _). pose proof (code_wseq CO) as K. destruct (l_wq l) as [k n]. cbn [fst snd] in *.
      destruct K as [_ K]. apply (K sq Es EB).
    + intros D. change (bp_dual_plane d') with (g_dual (l_grid l)) in Ei. rewrite D in Ei.
      apply (infill_read m bw bh _ _ wv ws Iw Ih (co_width _ _ CO) (co_height _ _ CO) Lv Ei).
Qed.
End Code.

(** ** Any block *)
Lemma code_layout_none W : code_layout W = None -> block_mode W = None.
Proof.
  intros H. unfold code_layout in H. destruct (block_mode W) as [g|] eqn:E; [|reflexivity].
  pose proof (grid_bounds_ok W) as GB. unfold grid_bounds in GB. rewrite E in GB.
  destruct (weight_quant (g_range g)) as [[k n]|]; discriminate.
Qed.
Lemma code_layout_mode W l : code_layout W = Some l -> block_mode W = Some (l_grid l).
Proof.
  intros H. unfold code_layout in H. destruct (block_mode W) as [g|]; [|discriminate].
  destruct (weight_quant (g_range g)) as [[k n]|]; [|discriminate]. cbv zeta in H. injection H as <-. reflexivity.
Qed.

Theorem code_block m buf bw bh : bytes buf -> 16 <= zlen buf < 2 ^ 60 ->
  In bw footprint_sides -> In bh footprint_sides ->
  let W := astc_word buf in
  if code_decodes m W (zlen buf) then
    forall out, bw * bh <= zlen out -> exists o, decode_astc_block m buf bw bh out = Ok o /\
      filled 0 out o (bw * bh) (code_block_texel bw bh W (le_bytes buf))
  else forall out, decode_astc_block m buf bw bh out = Panic.
Proof.
  intros Hb [Hl Hl2] Iw Ih W. pose proof (sides_range _ Iw) as Rw. pose proof (sides_range _ Ih) as Rh.
  assert (0 <= bw * bh <= 144) as Ha by (split; [apply Z.mul_nonneg_nonneg; lia|transitivity (12 * 12); [apply Z.mul_le_mono_nonneg|]; lia]).
  unfold code_decodes, code_block_texel. destruct (void_extent W) eqn:HV.
  { destruct (void_decodes m W) eqn:HD; [intros out Ho; apply void_block; auto|intros out; apply void_panic; auto]. }
  destruct (code_layout W) as [l|] eqn:HL.
  - pose proof (code_facts buf l Hb Hl HL) as CO. fold W in CO.
    pose proof (accepts_ok m buf l CO) as AO. fold W in AO.
    destruct (code_accepts m W (zlen buf) l).
    + apply (code_texels m buf l Hb Hl Hl2 HL bw bh Iw Ih CO). apply AO. reflexivity.
    + intros out. destruct (decode_astc_block m buf bw bh out) as [o|e|] eqn:E.
      * exfalso. apply (code_reads m buf l Hb Hl Hl2 HL bw bh Iw Ih out o CO) in E. apply AO in E. discriminate.
      * exfalso. exact (ne_astc_block m buf bw bh out e E).
      * reflexivity.
  - intros out Ho. apply reserved_block; auto. apply code_layout_none. auto.
Qed.

(** ** The bytes behind the block *)
Lemma astc_word_first buf : astc_word (firstn 16 buf) = astc_word buf.
Proof. unfold astc_word. rewrite firstn_firstn. reflexivity. Qed.

Lemma decodes_more m W n n' : n <= n' -> code_decodes m W n = true -> code_decodes m W n' = true.
Proof.
  intros Hn. unfold code_decodes. destruct (void_extent W); [auto|].
  destruct (code_layout W) as [l|]; [|auto]. unfold code_accepts. rewrite !andb_true_iff, !Z.leb_le. intros [A B]. split; [lia|exact B].
Qed.

Lemma bfield_ext V V' p n : 0 <= p -> 0 <= n -> V mod 2 ^ (p + n) = V' mod 2 ^ (p + n) -> bfield V p n = bfield V' p n.
Proof. intros Hp Hn E. rewrite <- (bfield_mod V (p + n)), <- (bfield_mod V' (p + n)) by lia. rewrite E. reflexivity. Qed.

Lemma texel_own m buf bw bh i : bytes buf -> 16 <= zlen buf -> let W := astc_word buf in
  code_decodes m W 16 = true ->
  code_block_texel bw bh W (le_bytes buf) i = code_block_texel bw bh W W i.
Proof.
  intros Hb Hl W HD. unfold code_block_texel, code_decodes in *. destruct (void_extent W); [reflexivity|].
  destruct (code_layout W) as [l|] eqn:HL; [|reflexivity].
  pose proof (code_facts buf l Hb Hl HL) as CO. fold W in CO.
  unfold code_accepts in HD. apply andb_true_iff in HD as [HE _]. apply Z.leb_le in HE. unfold color_end in HE.
  assert (forall j, colors_of (le_bytes buf) l j = colors_of W l j) as CE.
  { intros j. unfold colors_of. pose proof (cl_cq _ (code_cem _ _ CO)) as IQ. destruct (l_cq l) as [k n]. cbn [fst snd] in *.
    pose proof (code_quants_ok _ _ IQ) as QO. assert (0 <= n) by (destruct k; cbn [quant_ok] in QO; lia).
    pose proof (co_cvalues32 _ _ CO). pose proof (co_cstart _ _ CO) as CS. 
    pose proof (seq_size_nonneg k n (l_cvalues l) ltac:(auto) ltac:(lia)) as SN.
    assert (17 <= l_cstart l <= 29) as S29 by (rewrite CS; destruct (l_parts l =? 1); lia).
    unfold W. rewrite (word_low buf Hb (l_cstart l) (seq_size k n (l_cvalues l))) by lia. reflexivity. }
  unfold code_texel. cbv zeta.
  set (p := if l_parts l =? 1 then 0 else _).
  assert (end_points_with extend16 (znth (l_cems l) p) (fun k => colors_of (le_bytes buf) l (cem_start l p + k)) =
    end_points_with extend16 (znth (l_cems l) p) (fun k => colors_of W l (cem_start l p + k))) as ->; [|reflexivity].
  unfold end_points_with. rewrite !CE. reflexivity.
Qed.
