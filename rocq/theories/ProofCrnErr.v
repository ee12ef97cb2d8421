(** * Which errors the crunch decoders can report *)
From Verif Require Import Base BaseLemmas ModelColor ModelBc ModelEtc ModelCrn ModelCrunch ModelUnity SpecCrnHeader SpecCrnErr ProofNoErr ProofCrnHeader ProofCrnFile.

Definition errs {A} (P : string -> Prop) (r : res A) : Prop := forall e, r = Err e -> P e.
Lemma er_ne {A} P (r : res A) : no_err r -> errs P r.
Proof. intros H e E. destruct (H e E). Qed.
Lemma er_bind {A B} P (x : res A) (f : A -> res B) : errs P x -> (forall a, x = Ok a -> errs P (f a)) -> errs P (bind x f).
Proof. intros H K e E. destruct x as [a|msg|]; cbn [bind] in E; [exact (K a eq_refl e E)|apply H; congruence|discriminate]. Qed.
Lemma er_or_err {A} (P : string -> Prop) msg (r : res A) : P msg -> errs P (or_err msg r).
Proof. intros H e E. destruct r; cbn [or_err] in E; congruence. Qed.
Lemma er_err {A} (P : string -> Prop) msg : P msg -> errs P (@Err A msg).
Proof. intros H e E. congruence. Qed.
Lemma er_for_list {A S} P (l : list A) (f : A -> S -> res S) : (forall a s, errs P (f a s)) -> forall s, errs P (for_list l f s).
Proof. intros H. induction l; intros s; cbn [for_list]; [apply er_ne, ne_ok|]. apply er_bind; auto. Qed.
Lemma er_for_range {S} P lo hi (f : Z -> S -> res S) s : (forall a s, errs P (f a s)) -> errs P (for_range lo hi f s).
Proof. intros H. apply er_for_list; auto. Qed.
Lemma er_weaken {A} (P Q : string -> Prop) (r : res A) : (forall e, P e -> Q e) -> errs P r -> errs Q r.
Proof. intros H K e E. apply H, K, E. Qed.

Create HintDb er discriminated.
#[local] Hint Resolve ne_ok ne_panic ne_ua ne_ia ne_sh ne_ushl ne_ushr ne_ishl ne_idx ne_upd ne_slice ne_slice_from ne_copy_into : ne.
Ltac er_step :=
  match goal with
  | |- forall _, _ => intro
  | |- errs _ (bind _ _) => apply er_bind
  | |- errs _ (for_range _ _ _ _) => apply er_for_range
  | |- errs _ (for_list _ _ _) => apply er_for_list
  | |- errs _ (or_err _ _) => apply er_or_err; reflexivity
  | |- errs _ _ => apply er_ne; solve [auto with ne nocore]
  | |- errs _ (let x := _ in _) => cbv zeta
  | |- errs _ (match ?x with _ => _ end) => destruct x
  | |- errs _ ?t => let h := ne_head t in unfold h
  end.
Ltac er_tac := repeat er_step.

Lemma ne_write_int m b i v : no_err (write_int m b i v). Proof. unfold write_int. ne_tac. Qed.
Lemma ne_limit m a b : no_err (limit m a b). Proof. unfold limit. ne_tac. Qed.
Lemma ne_alpha_words m u i : no_err (alpha_words m u i). Proof. unfold alpha_words. ne_tac. Qed.
Lemma ne_unity_alpha_words u i : no_err (unity_alpha_words u i). Proof. unfold unity_alpha_words. ne_tac. Qed.
#[local] Hint Resolve ne_write_int ne_limit ne_alpha_words ne_unity_alpha_words : ne.
Lemma ne_write_alpha m u d p e w : no_err (write_alpha m u d p e w). Proof. unfold write_alpha. ne_tac. Qed.
Lemma ne_write_bytes4 d p b : no_err (write_bytes4 d p b). Proof. unfold write_bytes4. ne_tac. Qed.
Lemma ne_etc_block_endpoint m a b f : no_err (etc_block_endpoint m a b f). Proof. unfold etc_block_endpoint. ne_tac. Qed.
#[local] Hint Resolve ne_write_alpha ne_write_bytes4 ne_etc_block_endpoint : ne.

Section M.
Context (m : build).
Lemma er_dxt1 u cd dst p a b c d : errs (eq "Failed to decord DXT1 Texture"%string) (unpack_dxt1 m u cd dst p a b c d). Proof. er_tac. Qed.
Lemma er_dxt5 u cd dst p a b c d : errs (eq "Failed to decord DXT5 Texture"%string) (unpack_dxt5 m u cd dst p a b c d). Proof. er_tac. Qed.
Lemma er_dxt5a u cd dst p a b c d : errs (eq "Failed to decord DXT5A Texture"%string) (unpack_dxt5a m u cd dst p a b c d). Proof. er_tac. Qed.
Lemma er_dxn u cd dst p a b c d : errs (eq "Failed to decord DXN Texture"%string) (unpack_dxn m u cd dst p a b c d). Proof. er_tac. Qed.
Lemma er_u_dxt1 u cd dst p a b : errs (eq "Failed to decode DXT1 Texture."%string) (unity_unpack_dxt1 m u cd dst p a b). Proof. er_tac. Qed.
Lemma er_u_dxt5 u cd dst p a b : errs (eq "Failed to decode DXT5 Texture."%string) (unity_unpack_dxt5 m u cd dst p a b). Proof. er_tac. Qed.
Lemma er_u_dxt5a u cd dst p a b : errs (eq "Failed to decode DXT5A Texture."%string) (unity_unpack_dxt5a m u cd dst p a b). Proof. er_tac. Qed.
Lemma er_u_dxn u cd dst p a b : errs (eq "Failed to decode DXN Texture."%string) (unity_unpack_dxn m u cd dst p a b). Proof. er_tac. Qed.
Lemma er_u_etc1 u cd dst p a b : errs (eq "Failed to decode ETC1 Texture."%string) (unity_unpack_etc1 m u cd dst p a b). Proof. er_tac. Qed.
Lemma er_u_etc2a u cd dst p a b : errs (eq "Failed to decode ETC2 Texture."%string) (unity_unpack_etc2a m u cd dst p a b). Proof. er_tac. Qed.
End M.

(** ** The header, whatever size is announced *)
Lemma packed_inv n d o v : bytes d -> 1 <= n <= 4 -> 0 <= o -> packed n d o = Ok v -> v = number d o n.
Proof.
  intros Hb Hn Ho E. destruct (Z.le_gt_cases (o + n) (zlen d)) as [L|L]; [rewrite packed_ok in E by (auto; lia); congruence|].
  rewrite packed_panic in E by lia. discriminate.
Qed.
Lemma get_header_inv d n h : bytes d -> crnd_get_header d n = Ok h ->
  74 <= n /\ h_width h = number d 12 2 /\ h_height h = number d 14 2 /\ h_format h = number d 18 1.
Proof.
  intros Hb E. unfold crnd_get_header, HEADER_MIN_SIZE in E. destruct (Z.ltb_spec n 74) as [L|L]; [discriminate|].
  do 21 (apply bind_ok_inv in E as (? & ? & E)).
  repeat match type of E with (if ?b then _ else _) = _ => destruct b; [discriminate|] end.
  repeat match goal with H : packed _ _ _ = Ok _ |- _ => apply packed_inv in H; [|exact Hb|lia|lia] end.
  inversion E; subst h. cbn [h_width h_height h_format]. auto.
Qed.
Lemma get_info_inv d n i : bytes d -> crnd_get_texture_info d n = Ok i ->
  exists h, crnd_get_header d n = Ok h /\ 74 <= n /\ h_width h = number d 12 2 /\ h_height h = number d 14 2 /\ h_format h = number d 18 1 /\
    i_width i = number d 12 2 /\ i_height i = number d 14 2 /\ i_format i = number d 18 1 /\ number d 18 1 <= 15.
Proof.
  intros Hb E. unfold crnd_get_texture_info in E. destruct (n <? HEADER_MIN_SIZE); [discriminate|].
  apply bind_ok_inv in E as (h & Eh & E). pose proof (get_header_inv d n h Hb Eh) as (Hn & Hw & Hh & Hf).
  pose proof (number_range d 18 1 Hb ltac:(lia)) as R. rewrite Hf in E. unfold format_of in E.
  destruct (Z.leb_spec 0 (number d 18 1)); [|lia]. destruct (Z.leb_spec (number d 18 1) 15); cbn [andb] in E; [|rewrite Z.eqb_refl in E; discriminate].
  destruct (Z.eqb_spec (number d 18 1) FmtInvalid) as [K|K]; [discriminate|].
  exists h. inversion E; subst i. cbn [i_width i_height i_format]. tauto.
Qed.
Lemma init_header m d n u : unpacker_init m d n = Ok u -> crnd_get_header d n = Ok (u_header u).
Proof.
  intros E. unfold unpacker_init in E. apply bind_ok_inv in E as (h & Eh & E). apply bind_ok_inv in E as ([[[[x1 x2] x3] x4] x5] & _ & E).
  apply bind_ok_inv in E as ([y1 y2] & _ & E). apply bind_ok_inv in E as ([z1 z2] & _ & E). inversion E; subst u. exact Eh.
Qed.
Lemma unity_init_header m d n u : unity_init m d n = Ok u -> crnd_get_header d n = Ok (u_header u).
Proof.
  intros E. unfold unity_init in E. apply bind_ok_inv in E as (h & Eh & E). apply bind_ok_inv in E as ([[[[x1 x2] x3] x4] x5] & _ & E).
  apply bind_ok_inv in E as ([y1 y2] & _ & E). apply bind_ok_inv in E as ([z1 z2] & _ & E). inversion E; subst u. exact Eh.
Qed.

(** ** Sizes *)
Definition blocks (w : Z) : Z := Z.shiftr (Z.max w 1 + 3) 2.
Lemma blocks_range w : 0 <= w < 65536 -> 1 <= blocks w <= 16384.
Proof. intros H. unfold blocks. rewrite Z.shiftr_div_pow2 by lia. change (2 ^ 2) with 4. pose proof (Z.div_mod (Z.max w 1 + 3) 4). pose proof (Z.mod_pos_bound (Z.max w 1 + 3) 4). lia. Qed.
Lemma blocks_same w : 0 <= w < 65536 -> Z.max 1 (Z.shiftr (Z.max 1 (Z.shiftr w 0) + 3) 2) = blocks w.
Proof. intros H. pose proof (blocks_range w H). rewrite Z.shiftr_0_r, (Z.max_comm 1 w). fold (blocks w). lia. Qed.

Lemma start_ne src size : size <> 0 -> no_err (start_decoding src size).
Proof. intros H. unfold start_decoding. destruct (Z.eqb_spec size 0); [lia|]. apply ne_bind; [apply ne_idx|intros; apply ne_ok]. Qed.
Lemma level_source_er (P : string -> Prop) u l : P "Level offset mismatch."%string -> errs P (level_source u l).
Proof.
  intros H. unfold level_source. apply er_bind; [apply er_ne, ne_idx|intros cur _]. apply er_bind; [|intros next _].
  - destruct (_ <? _); apply er_ne; [apply ne_idx|apply ne_ok].
  - destruct (_ <=? _); [apply er_err, H|]. apply er_bind; [apply er_ne, ne_slice_from|intros; apply er_ne, ne_ok].
Qed.
Lemma level_source_size u l src size : level_source u l = Ok (src, size) -> size <> 0.
Proof.
  unfold level_source. intros E. apply bind_ok_inv in E as (cur & _ & E). apply bind_ok_inv in E as (next & _ & E).
  destruct (Z.leb_spec next cur); [discriminate|]. apply bind_ok_inv in E as (s & _ & E). assert (size = next - cur) by congruence. lia.
Qed.
Lemma total_cases m k bx by_ tot : (k = 8 \/ k = 16) -> 1 <= bx <= 16384 -> 1 <= by_ <= 16384 -> ua m 32 (bx * k * by_) = Ok tot ->
  8 <= tot \/ m = Wrapping /\ k = 16.
Proof.
  intros Hk Hx Hy E. assert (1 <= bx * by_ <= 16384 * 16384) as B by nia. replace (bx * k * by_) with (k * (bx * by_)) in E by ring.
  destruct (Z.lt_ge_cases (k * (bx * by_)) (2 ^ 32)) as [L|L].
  - rewrite ua_ok in E by lia. left. assert (tot = k * (bx * by_)) by congruence. nia.
  - right. unfold ua in E. destruct (Z.ltb_spec (k * (bx * by_)) (2 ^ 32)); [lia|]. rewrite andb_false_r in E. destruct m; [discriminate|].
    split; [reflexivity|]. destruct Hk; [lia|assumption].
Qed.

Definition formats16 (f : Z) : Prop := f = 0 \/ f = 1 \/ f = 2 \/ f = 3 \/ f = 4 \/ f = 5 \/ f = 6 \/ f = 7 \/ f = 8 \/ f = 9 \/ f = 10 \/ f = 11 \/ f = 12 \/ f = 13 \/ f = 14 \/ f = 15.
Lemma formats16_ok f : 0 <= f <= 15 -> formats16 f.
Proof. unfold formats16. lia. Qed.
Ltac fmt_consts := unfold FmtDxt1, FmtDxt3, FmtDxt5, FmtDxt5CcxY, FmtDxt5XGxR, FmtDxt5XGbr, FmtDxt5Agbr, FmtDxnXy, FmtDxnYx, FmtDxt5a, FmtEtc1, FmtEtc2, FmtEtc2a, FmtEtc1s, FmtEtc2as in *.

(** The head of the second stage: pitch and size are accepted. *)
Lemma stage_er {A} m (P : string -> Prop) k minimal by_ bx tot (start : Z -> res A) :
  (k = 8 \/ k = 16) -> 1 <= bx <= 16384 -> 1 <= by_ <= 16384 -> ua m 32 (bx * k * by_) = Ok tot ->
  (bx * k < minimal -> P "Crunch Row size is below the minimum allowed."%string) ->
  (minimal <= bx * k -> errs P (start (bx * k))) ->
  errs P (let* row_pitch :=
    if bx * k =? 0 then Ok minimal
    else if (bx * k <? minimal) || negb (Z.land (bx * k) 3 =? 0)
    then Err "Crunch Row size is below the minimum allowed."
    else Ok (bx * k) in
    let* need := ua m 32 (row_pitch * by_) in
    if tot <? need then Err "Destination buffer size is smaller than what expected to decompress." else start row_pitch).
Proof.
  intros Hk Hx Hy E H1 H2. destruct (Z.eqb_spec (bx * k) 0) as [K|K]; [nia|].
  replace (Z.land (bx * k) 3) with 0. 2:{ change 3 with (Z.ones 2). rewrite Z.land_ones by lia. symmetry. apply Z.mod_divide; [lia|]. destruct Hk as [->| ->]; [exists (bx * 2)|exists (bx * 4)]; ring. }
  cbn [Z.eqb negb orb]. rewrite orb_false_r. destruct (Z.ltb_spec (bx * k) minimal) as [L|L]; cbn [bind]; [apply er_err, H1, L|].
  rewrite E. cbn [bind]. rewrite Z.ltb_irrefl. apply H2. lia.
Qed.

(** ** Crunch *)
Lemma crunch_level_2_er m u src size tot k f (P : string -> Prop) :
  0 <= h_width (u_header u) < 65536 -> 0 <= h_height (u_header u) < 65536 -> h_format (u_header u) = f -> 0 <= f <= 10 -> size <> 0 ->
  k = (if wide f then 16 else 8) -> ua m 32 (blocks (h_width (u_header u)) * k * blocks (h_height (u_header u))) = Ok tot ->
  (forall e, In e (crunch_stream f) -> P e) ->
  errs P (unpack_level_2 m u src size tot (blocks (h_width (u_header u)) * k) 0).
Proof.
  intros Hw Hh Hf Rf Hs Hk E HP. pose proof (blocks_range _ Hw) as Bx. pose proof (blocks_range _ Hh) as By.
  unfold unpack_level_2. cbv zeta. rewrite !Z.shiftr_0_r. fold (blocks (h_width (u_header u))). fold (blocks (h_height (u_header u))). rewrite Hf.
  set (bx := blocks (h_width (u_header u))) in *. set (by_ := blocks (h_height (u_header u))) in *.
  apply (stage_er m P k _ by_ bx tot); [rewrite Hk; destruct (wide f); auto|exact Bx|exact By|exact E| |].
  - intros L. apply HP. subst k. assert (formats16 f) as C by (apply formats16_ok; lia).
    fmt_consts. unfold formats16 in C. repeat (destruct C as [->|C]; [cbn [Z.eqb Pos.eqb orb wide one_of existsb] in L; first [lia|left; reflexivity]|]). lia.
  - intros L. apply er_bind; [apply er_ne|intros cd _].
    { intros e. assert (no_err (start_decoding src size)) as N by (apply start_ne, Hs). destruct (start_decoding src size) eqn:Es; cbn [or_err]; [discriminate|destruct (N msg); reflexivity|discriminate]. }
    assert (formats16 f) as C by (apply formats16_ok; lia). fmt_consts. unfold formats16 in C.
    repeat (destruct C as [->|C]; [cbn [Z.eqb Pos.eqb orb]; first
      [ apply (er_weaken _ _ _ (fun e H => HP e (or_introl H))); first [apply er_dxt1|apply er_dxt5|apply er_dxt5a|apply er_dxn]
      | apply er_err, HP; left; reflexivity | cbn [Z.eqb Pos.eqb orb wide one_of existsb] in L; subst k; cbn [Z.eqb Pos.eqb orb wide one_of existsb] in L; lia | lia]|]). lia.
Qed.
Lemma crunch_level_er m d n : bytes d -> errs (fun e => In e (crunch_errors m (number d 18 1))) (crunch_unpack_level m d n 0).
Proof.
  intros Hb. set (f := number d 18 1). set (P := fun e => In e (crunch_errors m f)). unfold crunch_unpack_level.
  apply er_bind; [apply er_or_err; left; reflexivity|intros i Ei].
  assert (crnd_get_texture_info d n = Ok i) as Ei' by (destruct (crnd_get_texture_info d n); cbn [or_err] in Ei; congruence).
  destruct (get_info_inv d n i Hb Ei') as (h & Eh & Hn & Ehw & Ehh & Ehf & Eiw & Eih & Eif & Rf). fold f in Ehf, Eif, Rf.
  pose proof (number_range d 18 1 Hb ltac:(lia)) as Rf0. fold f in Rf0.
  pose proof (number_range d 12 2 Hb ltac:(lia)) as Rw. pose proof (number_range d 14 2 Hb ltac:(lia)) as Rh. change (256 ^ 2) with 65536 in *.
  assert (forall e, In e ("Failed to initialize Crunch decompressor."%string ::
    (if 11 <=? f then ["Texture format is not supported."%string] else size_lost m f ++ "Level offset mismatch."%string :: crunch_stream f)) -> P e) as HP.
  { intros e H. unfold P, crunch_errors. destruct (Z.ltb_spec 15 f); [lia|]. right. exact H. }
  apply er_bind.
  { unfold crnd_unpack_begin. change CRNHEADER_MIN_SIZE with 62. destruct (Z.ltb_spec n 62); [lia|]. apply er_or_err, HP. left. reflexivity. }
  intros u Eu. assert (unpacker_init m d n = Ok u) as Eu'.
  { unfold crnd_unpack_begin in Eu. destruct (n <? CRNHEADER_MIN_SIZE); [discriminate|]. destruct (unpacker_init m d n); cbn [or_err] in Eu; congruence. }
  apply init_header in Eu'. assert (u_header u = h) as Euh by congruence.
  rewrite Eiw, Eih, Eif. cbv zeta. rewrite !blocks_same by assumption.
  destruct (Z.leb_spec 11 f) as [L|L].
  - apply er_bind.
    + unfold crn_bytes_per_dxt_block. apply er_bind; [|intros; apply er_ne, ne_ok]. unfold crn_format_bits_per_texel.
      destruct (_ || _ || _); [apply er_ne, ne_ok|]. destruct (_ || _); [apply er_ne, ne_ok|]. apply er_err, HP. right. left. reflexivity.
    + intros b E. exfalso. assert (formats16 f) as C by (apply formats16_ok; lia). unfold formats16 in C. clear - C E L.
      repeat (destruct C as [->|C]; [first [lia|discriminate E]|]). rewrite C in E. discriminate E.
  - assert (crn_bytes_per_dxt_block f = Ok (if wide f then 16 else 8)) as Eb.
    { assert (formats16 f) as C by (apply formats16_ok; lia). unfold formats16 in C. clear - C L.
      repeat (destruct C as [->|C]; [first [reflexivity|lia]|]). lia. }
    rewrite Eb. cbn [bind]. set (k := if wide f then 16 else 8) in *. assert (k = 8 \/ k = 16) as Hk by (unfold k; destruct (wide f); auto).
    pose proof (blocks_range _ Rw) as Bx. pose proof (blocks_range _ Rh) as By.
    set (bx := blocks (number d 12 2)) in *. set (by_ := blocks (number d 14 2)) in *.
    rewrite ua_ok by (change (2 ^ 32) with 4294967296; destruct Hk as [->| ->]; lia). cbn [bind].
    apply er_bind; [apply er_ne, ne_ua|intros tot Et]. apply er_bind; [|intros; apply er_ne, ne_ok].
    unfold crnd_unpack_level. change (CRNMAX_LEVELS <=? 0) with false. rewrite orb_false_r.
    destruct (Z.ltb_spec tot 8) as [T|T].
    + apply er_err, HP. right. apply in_or_app. left. destruct (total_cases m k bx by_ tot Hk Bx By Et) as [K|[-> K]]; [lia|].
      unfold size_lost. unfold k in K. destruct (wide f); [left; reflexivity|discriminate].
    + apply er_bind; [apply level_source_er, HP; right; apply in_or_app; right; left; reflexivity|intros [src size] Es].
      apply level_source_size in Es.
      replace bx with (blocks (h_width (u_header u))) in * by (unfold bx; rewrite Euh, Ehw; reflexivity).
      apply crunch_level_2_er with (f := f); [rewrite Euh, Ehw; exact Rw|rewrite Euh, Ehh; exact Rh|rewrite Euh; exact Ehf|lia|exact Es|reflexivity| |].
      * rewrite <- Et. unfold by_. rewrite Euh, Ehh. reflexivity.
      * intros e H. apply HP. right. apply in_or_app. right. right. exact H.
Qed.

(** ** Unity crunch *)
Lemma unity_level_2_er m u src size tot k f (P : string -> Prop) :
  0 <= h_width (u_header u) < 65536 -> 0 <= h_height (u_header u) < 65536 -> h_format (u_header u) = f -> 0 <= f <= 14 -> size <> 0 ->
  k = (if wide f then 16 else 8) -> ua m 32 (blocks (h_width (u_header u)) * k * blocks (h_height (u_header u))) = Ok tot ->
  (forall e, In e (unity_stream f) -> P e) ->
  errs P (unity_unpack_level_2 m u src size tot (blocks (h_width (u_header u)) * k) 0).
Proof.
  intros Hw Hh Hf Rf Hs Hk E HP. pose proof (blocks_range _ Hw) as Bx. pose proof (blocks_range _ Hh) as By.
  unfold unity_unpack_level_2. cbv zeta. rewrite !Z.shiftr_0_r. fold (blocks (h_width (u_header u))). fold (blocks (h_height (u_header u))). rewrite Hf.
  set (bx := blocks (h_width (u_header u))) in *. set (by_ := blocks (h_height (u_header u))) in *.
  apply (stage_er m P k _ by_ bx tot); [rewrite Hk; destruct (wide f); auto|exact Bx|exact By|exact E| |].
  - intros L. apply HP. subst k. assert (formats16 f) as C by (apply formats16_ok; lia).
    fmt_consts. unfold formats16 in C. repeat (destruct C as [->|C]; [cbn [Z.eqb Pos.eqb orb wide one_of existsb] in L; first [lia|left; reflexivity]|]). lia.
  - intros L. apply er_bind; [apply er_ne|intros cd _].
    { intros e. assert (no_err (start_decoding src size)) as N by (apply start_ne, Hs). destruct (start_decoding src size) eqn:Es; cbn [or_err]; [discriminate|destruct (N msg); reflexivity|discriminate]. }
    assert (formats16 f) as C by (apply formats16_ok; lia). fmt_consts. unfold formats16 in C.
    repeat (destruct C as [->|C]; [cbn [Z.eqb Pos.eqb orb]; first
      [ apply (er_weaken _ _ _ (fun e H => HP e (or_introl H))); first [apply er_u_dxt1|apply er_u_dxt5|apply er_u_dxt5a|apply er_u_dxn|apply er_u_etc1|apply er_u_etc2a]
      | apply er_err, HP; left; reflexivity | cbn [Z.eqb Pos.eqb orb wide one_of existsb] in L; subst k; cbn [Z.eqb Pos.eqb orb wide one_of existsb] in L; lia | lia]|]). lia.
Qed.
Lemma unity_level_er m d n : bytes d -> errs (fun e => In e (unity_errors m (number d 18 1))) (unity_crunch_unpack_level m d n 0).
Proof.
  intros Hb. set (f := number d 18 1). set (P := fun e => In e (unity_errors m f)). unfold unity_crunch_unpack_level.
  apply er_bind; [apply er_or_err; left; reflexivity|intros i Ei].
  assert (crnd_get_texture_info d n = Ok i) as Ei' by (destruct (crnd_get_texture_info d n); cbn [or_err] in Ei; congruence).
  destruct (get_info_inv d n i Hb Ei') as (h & Eh & Hn & Ehw & Ehh & Ehf & Eiw & Eih & Eif & Rf). fold f in Ehf, Eif, Rf.
  pose proof (number_range d 18 1 Hb ltac:(lia)) as Rf0. fold f in Rf0.
  pose proof (number_range d 12 2 Hb ltac:(lia)) as Rw. pose proof (number_range d 14 2 Hb ltac:(lia)) as Rh. change (256 ^ 2) with 65536 in *.
  assert (forall e, In e ("Failed to initialize Crunch decompressor."%string ::
    (if 15 <=? f then ["Texture format is not supported."%string] else size_lost m f ++ "Level offset mismatch."%string :: unity_stream f)) -> P e) as HP.
  { intros e H. unfold P, unity_errors. destruct (Z.ltb_spec 15 f); [lia|]. right. exact H. }
  apply er_bind.
  { unfold unity_unpack_begin. change CRNHEADER_MIN_SIZE with 62. destruct (Z.ltb_spec n 62); [lia|]. apply er_or_err, HP. left. reflexivity. }
  intros u Eu. assert (unity_init m d n = Ok u) as Eu'.
  { unfold unity_unpack_begin in Eu. destruct (n <? CRNHEADER_MIN_SIZE); [discriminate|]. destruct (unity_init m d n); cbn [or_err] in Eu; congruence. }
  apply unity_init_header in Eu'. assert (u_header u = h) as Euh by congruence.
  rewrite Eiw, Eih, Eif. cbv zeta. rewrite !blocks_same by assumption.
  destruct (Z.leb_spec 15 f) as [L|L].
  - apply er_bind.
    + unfold unity_bytes_per_dxt_block. apply er_bind; [|intros; apply er_ne, ne_ok]. unfold unity_bits_per_texel.
      destruct (_ || _); [apply er_ne, ne_ok|]. destruct (_ || _); [apply er_ne, ne_ok|]. apply er_err, HP. right. left. reflexivity.
    + intros b E. exfalso. assert (formats16 f) as C by (apply formats16_ok; lia). unfold formats16 in C. clear - C E L.
      repeat (destruct C as [->|C]; [first [lia|discriminate E]|]). rewrite C in E. discriminate E.
  - assert (unity_bytes_per_dxt_block f = Ok (if wide f then 16 else 8)) as Eb.
    { assert (formats16 f) as C by (apply formats16_ok; lia). unfold formats16 in C. clear - C L.
      repeat (destruct C as [->|C]; [first [reflexivity|lia]|]). lia. }
    rewrite Eb. cbn [bind]. set (k := if wide f then 16 else 8) in *. assert (k = 8 \/ k = 16) as Hk by (unfold k; destruct (wide f); auto).
    pose proof (blocks_range _ Rw) as Bx. pose proof (blocks_range _ Rh) as By.
    set (bx := blocks (number d 12 2)) in *. set (by_ := blocks (number d 14 2)) in *.
    rewrite ua_ok by (change (2 ^ 32) with 4294967296; destruct Hk as [->| ->]; lia). cbn [bind].
    apply er_bind; [apply er_ne, ne_ua|intros tot Et]. apply er_bind; [|intros; apply er_ne, ne_ok].
    unfold unity_crnd_unpack_level. change (CRNMAX_LEVELS <=? 0) with false. rewrite orb_false_r.
    destruct (Z.ltb_spec tot 8) as [T|T].
    + apply er_err, HP. right. apply in_or_app. left. destruct (total_cases m k bx by_ tot Hk Bx By Et) as [K|[-> K]]; [lia|].
      unfold size_lost. unfold k in K. destruct (wide f); [left; reflexivity|discriminate].
    + apply er_bind; [apply level_source_er, HP; right; apply in_or_app; right; left; reflexivity|intros [src size] Es].
      apply level_source_size in Es.
      replace bx with (blocks (h_width (u_header u))) in * by (unfold bx; rewrite Euh, Ehw; reflexivity).
      apply unity_level_2_er with (f := f); [rewrite Euh, Ehw; exact Rw|rewrite Euh, Ehh; exact Rh|rewrite Euh; exact Ehf|lia|exact Es|reflexivity| |].
      * rewrite <- Et. unfold by_. rewrite Euh, Ehh. reflexivity.
      * intros e H. apply HP. right. apply in_or_app. right. right. exact H.
Qed.
