(** * C30, C47, C48, C52: every ASTC block, malformed ones included *)
From Verif Require Import Base BaseLemmas ModelColor SpecImage SpecBc ProofImage ModelAstc SpecAstc ProofAstcSeq ProofAstcBlock ProofAstcImage ProofAstcNoErr SpecAstcCode ProofAstcCode PropAstc.

Lemma footprint_in bw bh : footprint bw bh -> In bw footprint_sides /\ In bh footprint_sides.
Proof.
  intros H. unfold footprint in H. unfold footprint_sides. cbn [In] in *.
  repeat (destruct H as [E|H]; [injection E as <- <-; tauto|]). destruct H.
Qed.
Lemma block_code m bw bh buf : footprint bw bh -> bytes buf -> 16 <= zlen buf < 2 ^ 60 ->
  if code_decodes m (astc_word buf) (zlen buf)
  then forall out, bw * bh <= zlen out -> exists o, decode_astc_block m buf bw bh out = Ok o /\
    filled 0 out o (bw * bh) (code_block_texel bw bh (astc_word buf) (le_bytes buf))
  else forall out, decode_astc_block m buf bw bh out = Panic.
Proof. intros F Hb Hl. destruct (footprint_in _ _ F). apply code_block; auto. Qed.

(** ** C30: which blocks decode and which panic *)
(** [buf] is the block and whatever follows it in the file.  (No slice has
    2^60 bytes or more in memory.) *)
Theorem C30_blocks_code m bw bh buf : footprint bw bh -> bytes buf -> 16 <= zlen buf < 2 ^ 60 ->
  (code_decodes m (astc_word buf) (zlen buf) = true -> forall out, bw * bh <= zlen out ->
     exists o, decode_astc_block m buf bw bh out = Ok o /\ zlen o = zlen out /\
       (forall t, 0 <= t < bw * bh -> znth o t = code_block_texel bw bh (astc_word buf) (le_bytes buf) t) /\
       (forall t, bw * bh <= t -> znth o t = znth out t)) /\
  (code_decodes m (astc_word buf) (zlen buf) = false -> forall out, decode_astc_block m buf bw bh out = Panic).
Proof.
  intros F Hb Hl. pose proof (block_code m bw bh buf F Hb Hl) as K. destruct (footprint_size _ _ F) as (A & B & C).
  destruct (code_decodes m (astc_word buf) (zlen buf)); (split; [|try discriminate]); [|discriminate|auto].
  intros _ out Ho. destruct (K out Ho) as (o & E & L & T). exists o. split; [exact E|]. split; [exact L|].
  unfold znth. split; intros t Ht; rewrite T by lia; destruct (Z.ltb_spec t (bw * bh)); auto; lia.
Qed.
(** A whole file: it decodes exactly if all of its blocks do. *)
Theorem C30_image_code m data w h bw bh image : footprint bw bh -> astc_sane data w h bw bh image -> zlen data < 2 ^ 60 ->
  blocks w bw * blocks h bh * 16 <= zlen data -> w * h <= zlen image ->
  let decodes k := code_decodes m (astc_word (block_bytes 16 k data)) (zlen data - 16 * k) in
  ((forall k, 0 <= k < blocks w bw * blocks h bh -> decodes k = true) ->
     exists image', decode_astc m data w h bw bh image = Ok (Done, image') /\
       placed bw bh (fun k => code_block_texel bw bh (astc_word (block_bytes 16 k data)) (le_bytes (skipn (Z.to_nat (16 * k)) data)))
         w h image image') /\
  (forall k, 0 <= k < blocks w bw * blocks h bh -> decodes k = false -> decode_astc m data w h bw bh image = Panic).
Proof.
  intros F S L60 Hd Hi decodes. destruct (footprint_size _ _ F) as (A & B & C). destruct S as (Hb & Hw & Hh & W & H & Fi & Ar & N).
  assert (forall k, 0 <= k < blocks w bw * blocks h bh ->
    if decodes k
    then forall out, bw * bh <= zlen out -> exists o, decode_astc_block m (skipn (Z.to_nat (16 * k)) data) bw bh out = Ok o /\
      filled 0 out o (bw * bh) (code_block_texel bw bh (astc_word (block_bytes 16 k data)) (le_bytes (skipn (Z.to_nat (16 * k)) data)))
    else forall out, decode_astc_block m (skipn (Z.to_nat (16 * k)) data) bw bh out = Panic) as K.
  { intros k Hk. pose proof (block_code m bw bh (skipn (Z.to_nat (16 * k)) data) F) as K.
    rewrite word_of_block, zlen_skipn, Z2Nat.id in K by lia. rewrite Z.max_r in K by lia. apply K; [|lia]. apply bytes_skipn, Hb. }
  split.
  - intros HA. destruct (astc_image m data w h bw bh image) with
      (T := fun k => code_block_texel bw bh (astc_word (block_bytes 16 k data)) (le_bytes (skipn (Z.to_nat (16 * k)) data))) as (im & E & P); auto.
    + intros k Hk. specialize (K k ltac:(lia)). rewrite HA in K by lia. exact K.
    + eauto.
  - intros k Hk HF. specialize (K k Hk). rewrite HF in K.
    destruct (decode_astc m data w h bw bh image) as [[st im]|e|] eqn:E.
    + exfalso. destruct (astc_image_inv m data w h bw bh image Hw Hh C W H Ar N Hd Hi st im E k ltac:(lia)) as (T & HT).
      destruct (HT (repeat 0 144) C) as (o & Eo & _). rewrite K in Eo. discriminate Eo.
    + exfalso. pose proof (ne_astc m data w h bw bh image) as NE. rewrite E in NE. exact (NE e eq_refl).
    + reflexivity.
Qed.
Example C30_code_ex :
  code_decodes Checked (astc_word ex_legal) 16 = true /\ code_decodes Checked (astc_word ex_void) 16 = true /\ code_decodes Checked 0 16 = true /\
  code_decodes Checked (astc_word ex_neg_inf) 16 = false /\ code_decodes Wrapping (astc_word ex_neg_inf) 16 = true /\
  code_decodes Wrapping (astc_word ex_many_weights) 1000 = false /\
  code_decodes Wrapping (astc_word ex_no_room) 16 = false /\ code_decodes Checked (astc_word ex_no_room) 48 = true /\
  code_block_texel 4 4 (astc_word ex_no_room) (le_bytes (ex_no_room ++ repeat 255 32)) 0 = 0xffffffff /\
  decode_astc Checked (ex_legal ++ ex_no_room) 8 4 4 4 (repeat 0 32) = Panic /\
  decode_astc Checked (ex_no_room ++ ex_legal ++ ex_legal) 8 4 4 4 (repeat 0 32) <> Panic.
Proof. vm_compute. repeat split; discriminate. Qed.
Print Assumptions C30_blocks_code.
Print Assumptions C30_image_code.

(** ** C47: which blocks depend on the bytes behind them *)
(** All but those whose colours run past the block, and those differ: alone
    they panic. *)
Theorem C47_own_bytes_code m bw bh buf out : footprint bw bh -> bytes buf -> 16 <= zlen buf < 2 ^ 60 -> bw * bh <= zlen out ->
  decode_astc_block m buf bw bh out = decode_astc_block m (firstn 16 buf) bw bh out <->
  code_decodes m (astc_word buf) 16 = code_decodes m (astc_word buf) (zlen buf).
Proof.
  intros F Hb Hl Ho. destruct (footprint_size _ _ F) as (A & B & C).
  pose proof (block_code m bw bh buf F Hb Hl) as K.
  assert (zlen (firstn 16 buf) = 16) as L16 by (rewrite zlen_firstn; lia).
  pose proof (block_code m bw bh (firstn 16 buf) F (bytes_firstn _ _ Hb) ltac:(lia)) as K16.
  rewrite L16, astc_word_first in K16. fold (astc_word buf) in K16.
  destruct (code_decodes m (astc_word buf) 16) eqn:D16.
  - pose proof (decodes_more m (astc_word buf) 16 (zlen buf) ltac:(lia) D16) as DL. rewrite DL in *. split; [reflexivity|intros _].
    destruct (K out Ho) as (o & E & L & T), (K16 out Ho) as (o' & E' & L' & T'). rewrite E, E'. f_equal.
    apply znth_ext; [lia|]. intros t Ht. unfold znth. rewrite T, T' by lia. destruct (t <? bw * bh); [|reflexivity].
    rewrite (texel_own m) by (auto; lia). reflexivity.
  - rewrite K16. destruct (code_decodes m (astc_word buf) (zlen buf)) eqn:DL.
    + split; [|discriminate]. destruct (K out Ho) as (o & E & _). rewrite E. discriminate.
    + split; [reflexivity|]. intros _. apply K.
Qed.
Example C47_code_ex : code_decodes Checked (astc_word ex_no_room) 16 = false /\ code_decodes Checked (astc_word ex_no_room) 48 = true /\
  code_decodes Checked (astc_word ex_no_room1) 16 = true.
Proof. vm_compute. auto. Qed.
Print Assumptions C47_own_bytes_code.

(** ** C48: on well-formed blocks this is the description of the format *)
Theorem C48_code_agrees m bw bh buf : footprint bw bh -> bytes buf -> 16 <= zlen buf < 2 ^ 60 -> well_formed (astc_word buf) ->
  code_decodes m (astc_word buf) (zlen buf) = true /\
  forall t, 0 <= t < bw * bh -> code_block_texel bw bh (astc_word buf) (le_bytes buf) t = astc_texel_with extend16 bw bh (astc_word buf) t.
Proof.
  intros F Hb Hl WF. destruct (footprint_size _ _ F) as (A & B & C). pose proof (block_code m bw bh buf F Hb Hl) as K.
  destruct (well_formed_block m buf bw bh Hb ltac:(lia) ltac:(lia) ltac:(lia) C WF (repeat 0 144) C) as (o & E & L & T).
  destruct (code_decodes m (astc_word buf) (zlen buf)).
  - split; [reflexivity|]. intros t Ht. destruct (K (repeat 0 144) C) as (o' & E' & L' & T'). assert (o' = o) as -> by congruence.
    pose proof (T t ltac:(lia)) as X. rewrite (T' t ltac:(lia)) in X. destruct (Z.ltb_spec t (bw * bh)); [exact X|lia].
  - rewrite K in E. discriminate E.
Qed.
Example C48_code_ex : well_formed (astc_word ex_hdr) /\
  code_block_texel 4 4 (astc_word ex_hdr) (le_bytes ex_hdr) 0 = 0xff2d002d.
Proof. split; [split; [reflexivity|right; right; vm_compute; discriminate]|vm_compute; reflexivity]. Qed.
Print Assumptions C48_code_agrees.

(** ** C52: blocks with a valid mode and other fields illegal *)
(** They are never recognised: they give texels like a legal block, or the
    program panics. *)
Theorem C52_illegal_code m bw bh buf out : footprint bw bh -> bytes buf -> 16 <= zlen buf < 2 ^ 60 -> bw * bh <= zlen out ->
  void_extent (astc_word buf) = false -> block_mode (astc_word buf) <> None ->
  exists l, code_layout (astc_word buf) = Some l /\
    if code_accepts m (astc_word buf) (zlen buf) l
    then exists o, decode_astc_block m buf bw bh out = Ok o /\
      (forall t, 0 <= t < bw * bh -> znth o t = code_texel bw bh (astc_word buf) (le_bytes buf) l t)
    else decode_astc_block m buf bw bh out = Panic.
Proof.
  intros F Hb Hl Ho V M. destruct (footprint_size _ _ F) as (A & B & C). pose proof (block_code m bw bh buf F Hb Hl) as K.
  unfold code_decodes, code_block_texel in K. rewrite V in K.
  destruct (code_layout (astc_word buf)) as [l|] eqn:L.
  - exists l. split; [reflexivity|]. destruct (code_accepts m (astc_word buf) (zlen buf) l); [|apply K].
    destruct (K out Ho) as (o & E & _ & T). exists o. split; [exact E|]. intros t Ht. unfold znth. rewrite T by lia.
    destruct (Z.ltb_spec t (bw * bh)); [reflexivity|lia].
  - exfalso. exact (M (code_layout_none _ L)).
Qed.
Example C52_code_ex : void_extent (astc_word ex_no_room1) = false /\ block_mode (astc_word ex_no_room1) <> None /\
  block_layout (astc_word ex_no_room1) = None /\
  code_block_texel 4 4 (astc_word ex_no_room1) (le_bytes ex_no_room1) 0 = 0.
Proof. vm_compute. repeat split; discriminate. Qed.
Print Assumptions C52_illegal_code.
