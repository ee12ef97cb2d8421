(** * C69: the errors of the crunch decoders *)
From Verif Require Import Base BaseLemmas ModelColor ModelBc ModelEtc ModelCrn ModelCrunch ModelUnity SpecCrnHeader SpecCrnTexel SpecCrnErr ProofNoErr ProofAgree ProofCrnHeader
  ProofCrnFile ProofCrnDecode ProofCrnErr PropErrors.

Lemma level_ok_inv m d n f dxt : bytes d -> crunch_unpack_level m d n 0 = Ok (f, dxt) -> f = number d 18 1 /\ f <= 15 /\ crunch_texels f <> None.
Proof.
  intros Hb E. unfold crunch_unpack_level in E. apply bind_ok_inv in E as (i & Ei & E). apply or_err_inv in Ei.
  destruct (get_info_inv d n i Hb Ei) as (h & Eh & _ & _ & _ & Ehf & _ & _ & Eif & Rf).
  apply bind_ok_inv in E as (u & Eu & E). unfold crnd_unpack_begin in Eu. destruct (n <? CRNHEADER_MIN_SIZE); [discriminate|].
  apply or_err_inv, init_header in Eu. cbv zeta in E. do 3 (apply bind_ok_inv in E as (? & _ & E)). apply bind_ok_inv in E as (out & Eo & E).
  assert (f = number d 18 1) as -> by congruence. split; [reflexivity|]. split; [exact Rf|].
  unfold crnd_unpack_level in Eo. destruct (_ || _); [discriminate|]. apply bind_ok_inv in Eo as ([src size] & _ & Eo). apply level_2_format in Eo.
  replace (number d 18 1) with (h_format (u_header u)); [exact Eo|]. congruence.
Qed.
Lemma unity_level_ok_inv m d n f dxt : bytes d -> unity_crunch_unpack_level m d n 0 = Ok (f, dxt) -> f = number d 18 1 /\ f <= 15 /\ unity_texels f <> None.
Proof.
  intros Hb E. unfold unity_crunch_unpack_level in E. apply bind_ok_inv in E as (i & Ei & E). apply or_err_inv in Ei.
  destruct (get_info_inv d n i Hb Ei) as (h & Eh & _ & _ & _ & Ehf & _ & _ & Eif & Rf).
  apply bind_ok_inv in E as (u & Eu & E). unfold unity_unpack_begin in Eu. destruct (n <? CRNHEADER_MIN_SIZE); [discriminate|].
  apply or_err_inv, unity_init_header in Eu. cbv zeta in E. do 3 (apply bind_ok_inv in E as (? & _ & E)). apply bind_ok_inv in E as (out & Eo & E).
  assert (f = number d 18 1) as -> by congruence. split; [reflexivity|]. split; [exact Rf|].
  unfold unity_crnd_unpack_level in Eo. destruct (_ || _); [discriminate|]. apply bind_ok_inv in Eo as ([src size] & _ & Eo). apply unity_level_2_format in Eo.
  replace (number d 18 1) with (h_format (u_header u)); [exact Eo|]. congruence.
Qed.
Ltac fmt_consts := unfold FmtDxt1, FmtDxt3, FmtDxt5, FmtDxt5CcxY, FmtDxt5XGxR, FmtDxt5XGbr, FmtDxt5Agbr, FmtDxnXy, FmtDxnYx, FmtDxt5a, FmtEtc1, FmtEtc2, FmtEtc2a, FmtEtc1s, FmtEtc2as in *.

(** The only errors for a file with the format number [f]. *)
Lemma crunch_only m data w h image e image' : bytes data -> decode_crunch m data w h image = Ok (Failed e, image') ->
  In e (crunch_errors m (number data 18 1)) /\ image' = image.
Proof.
  intros Hb E. unfold decode_crunch in E. destruct (crunch_unpack_level m data (u32 (zlen data)) 0) as [[f dxt]|msg|] eqn:El; cbn [with_level] in E; [|split; [|congruence]|discriminate].
  - destruct (level_ok_inv m data _ f dxt Hb El) as (-> & Rf & T). pose proof (number_range data 18 1 Hb ltac:(lia)) as R0.
    assert (formats16 (number data 18 1)) as C by (apply formats16_ok; lia). revert T E C. generalize (number data 18 1). clear. intros f T E C. fmt_consts. unfold formats16 in C.
    assert (forall raw bd, block_decoder m 4 4 raw bd dxt w h image = Ok (Failed e, image') -> In e picture_messages /\ image' = image) as K.
    { intros raw bd H. destruct (cl_blocks m 4 4 raw bd dxt w h image e image' H). auto. }
    repeat (destruct C as [->|C]; [first [destruct (T eq_refl) | cbn [Z.eqb Pos.eqb orb] in E; apply K in E as [E1 E2]; (split; [|exact E2]);
      unfold crunch_errors; cbn [Z.ltb Z.leb Z.compare Pos.compare Pos.compare_cont]; do 2 right; apply in_or_app; right; do 2 right; exact E1]|]).
    subst f. destruct (T eq_refl).
  - assert (msg = e) as <- by congruence. exact (crunch_level_er m data _ Hb msg El).
Qed.
Lemma unity_only m data w h image e image' : bytes data -> decode_unity_crunch m data w h image = Ok (Failed e, image') ->
  In e (unity_errors m (number data 18 1)) /\ image' = image.
Proof.
  intros Hb E. unfold decode_unity_crunch in E. destruct (unity_crunch_unpack_level m data (u32 (zlen data)) 0) as [[f dxt]|msg|] eqn:El; cbn [with_level] in E; [|split; [|congruence]|discriminate].
  - destruct (unity_level_ok_inv m data _ f dxt Hb El) as (-> & Rf & T). pose proof (number_range data 18 1 Hb ltac:(lia)) as R0.
    assert (formats16 (number data 18 1)) as C by (apply formats16_ok; lia). revert T E C. generalize (number data 18 1). clear. intros f T E C. fmt_consts. unfold formats16 in C.
    assert (forall raw bd, block_decoder m 4 4 raw bd dxt w h image = Ok (Failed e, image') -> In e picture_messages /\ image' = image) as K.
    { intros raw bd H. destruct (cl_blocks m 4 4 raw bd dxt w h image e image' H). auto. }
    repeat (destruct C as [->|C]; [first [destruct (T eq_refl) | cbn [Z.eqb Pos.eqb orb] in E; apply K in E as [E1 E2]; (split; [|exact E2]);
      unfold unity_errors; cbn [Z.ltb Z.leb Z.compare Pos.compare Pos.compare_cont]; do 2 right; apply in_or_app; right; do 2 right; exact E1]|]).
    subst f. destruct (T eq_refl).
  - assert (msg = e) as <- by congruence. exact (unity_level_er m data _ Hb msg El).
Qed.

(** ** Files for every message
    The codes of these files have the single symbol 0, of one bit, and the palettes
    one entry (or [num] entries, for the end points).  [side] is the width and
    height, [lo] the place of the only level. *)
Definition tiny (f side num lo : Z) (level : list Z) : list Z :=
  [72; 120; 0; 74; 0; 0; 0; 0; 0; 0; 0; 0; side / 256; side mod 256; side / 256; side mod 256; 1; 1; f; 0; 0;
   0; 0; 0; 0; 0; 0; 0; 0; 0; 0; 0; 0;
   0; 0; 125; 0; 0; 23; 0; num; 0; 0; 148; 0; 0; 14; 0; 1; 0; 0; 148; 0; 0; 14; 0; num; 0; 0; 148; 0; 0; 14; 0; 1;
   0; 51; 0; 0; 74; 0; 0; 0; lo;
   0; 6; 96; 0; 0; 0; 0; 0; 0; 16; 0; 51; 0; 0; 0; 0; 0; 0; 0; 128; 1; 152; 0; 0; 0; 0; 0; 0; 4; 0; 12; 192; 0; 0; 0; 0; 0; 0; 32;
   0; 102; 0; 0; 0; 0; 0; 0; 1; 0; 0; 0; 0; 6; 96; 0; 0; 0; 0; 0; 0; 16; 0; 51; 0; 0; 0; 0; 0; 0; 0; 128; 0; 0; 0; 0; 6; 96; 0; 0;
   0; 0; 0; 0; 16; 0; 0; 0; 0] ++ level.
Definition witnesses (f : Z) : list (list Z * Z) :=
  [(tiny f 8 0 162 [0; 0], 8); (tiny f 8 1 164 [0; 0], 8); (tiny f 8 1 162 [255; 255], 8);
   (tiny f 8 1 162 [0; 0; 0; 0], 8); (tiny f 8 1 162 [0; 0; 0; 0], 16)].
Definition message (r : res (status * list Z)) : string := match r with Ok (Failed e, []) => e | _ => ""%string end.
Definition messages (dec : list Z -> Z -> Z -> list Z -> res (status * list Z)) (f : Z) : list string :=
  map (fun dw => message (dec (fst dw) (snd dw) 8 [])) (witnesses f).
Definition covers (seen wanted : list string) : bool := forallb (fun e => existsb (String.eqb e) seen && negb (String.eqb e "")) wanted.
Lemma crunch_covered : forallb (fun f => covers (messages (decode_crunch Checked) f) (tl (crunch_errors Checked f))) (zrange 0 16) = true.
Proof. vm_compute. reflexivity. Qed.
Lemma unity_covered : forallb (fun f => covers (messages (decode_unity_crunch Checked) f) (tl (unity_errors Checked f))) (zrange 0 16) = true.
Proof. vm_compute. reflexivity. Qed.
Definition lost : string := "Destination buffer size is too small.".
Lemma crunch_lost : forallb (fun f => String.eqb (message (decode_crunch Wrapping (tiny f 65535 1 162 [0; 0]) 8 8 [])) lost) [1; 2; 3; 4; 5; 6; 7; 8] = true.
Proof. vm_compute. reflexivity. Qed.
Lemma unity_lost : forallb (fun f => String.eqb (message (decode_unity_crunch Wrapping (tiny f 65535 1 162 [0; 0]) 8 8 [])) lost) [1; 2; 3; 4; 5; 6; 7; 8; 12; 14] = true.
Proof. vm_compute. reflexivity. Qed.

Definition reports (dec : list Z -> Z -> Z -> list Z -> res (status * list Z)) (f : Z) (msg : string) : Prop :=
  exists data w h image image', bytes data /\ number data 18 1 = f /\ dec data w h image = Ok (Failed msg, image').

Lemma message_inv r e : message r = e -> e <> ""%string -> r = Ok (Failed e, []).
Proof. unfold message. destruct r as [[[|x] [|]]|msg|]; intros H K; congruence. Qed.
Lemma tiny_bytes f side num lo level : 0 <= f < 256 -> 0 <= side < 65536 -> 0 <= num < 256 -> 0 <= lo < 256 -> bytes level -> bytes (tiny f side num lo level).
Proof.
  intros Hf Hs Hn Hl Hb. pose proof (Z.mod_pos_bound side 256 ltac:(lia)). assert (0 <= side / 256 < 256) by (split; [apply Z.div_pos|apply Z.div_lt_upper_bound]; lia).
  apply Forall_app. split; [|exact Hb]. repeat (apply Forall_cons; [unfold is_byte; lia|]). apply Forall_nil.
Qed.
Lemma tiny_format f side num lo level : number (tiny f side num lo level) 18 1 = f.
Proof. rewrite number_1. reflexivity. Qed.
Lemma covers_inv dec f wanted msg : 0 <= f < 256 -> covers (messages dec f) wanted = true -> In msg wanted -> reports dec f msg.
Proof.
  intros Hf C I. unfold covers in C. rewrite forallb_forall in C. specialize (C msg I). apply andb_prop in C as [C1 C2].
  apply existsb_exists in C1 as (e & Ie & Ee). apply String.eqb_eq in Ee. subst e.
  assert (msg <> ""%string) as N by (intros K; subst msg; discriminate C2).
  unfold messages in Ie. apply in_map_iff in Ie as (dw & E & Iw). apply message_inv in E; [|exact N].
  exists (fst dw), (snd dw), 8, [], []. split; [|split; [|exact E]].
  all: unfold witnesses in Iw; cbn [In] in Iw; repeat (destruct Iw as [<-|Iw]; [cbn [fst]; first [apply tiny_format|apply tiny_bytes; try lia; repeat (apply Forall_cons; [unfold is_byte; lia|]); apply Forall_nil]|]); destruct Iw.
Qed.
Lemma reports_wrapping (dec : build -> list Z -> Z -> Z -> list Z -> res (status * list Z)) m f msg :
  (forall d w h i, agrees (dec Checked d w h i) (dec Wrapping d w h i)) -> reports (dec Checked) f msg -> reports (dec m) f msg.
Proof.
  intros A (d & w & h & i & i' & Hb & Hf & E). exists d, w, h, i, i'. split; [exact Hb|]. split; [exact Hf|].
  destruct m; [exact E|]. destruct (A d w h i) as [K|K]; congruence.
Qed.
Lemma short_file f : 0 <= f < 256 -> bytes (repeat 0 18 ++ [f]) /\ number (repeat 0 18 ++ [f]) 18 1 = f.
Proof.
  intros Hf. split; [|rewrite number_1; reflexivity]. apply Forall_app. split; [apply Forall_forall; intros x Hx; apply repeat_spec in Hx; unfold is_byte; lia|].
  apply Forall_cons; [exact Hf|apply Forall_nil].
Qed.
Lemma lost_inv (dec : list Z -> Z -> Z -> list Z -> res (status * list Z)) l f : 0 <= f < 256 ->
  forallb (fun f => String.eqb (message (dec (tiny f 65535 1 162 [0; 0]) 8 8 [])) lost) l = true -> In f l -> reports dec f lost.
Proof.
  intros Hf C I. rewrite forallb_forall in C. specialize (C f I). apply String.eqb_eq, message_inv in C; [|discriminate].
  exists (tiny f 65535 1 162 [0; 0]), 8, 8, [], []. split; [|split; [apply tiny_format|exact C]].
  apply tiny_bytes; try lia. repeat (apply Forall_cons; [unfold is_byte; lia|]). apply Forall_nil.
Qed.

(** The errors a crunch file of format [f] can meet are exactly these. *)
Theorem C69_crunch m f msg : 0 <= f < 256 ->
  (reports (decode_crunch m) f msg <-> In msg (crunch_errors m f)).
Proof.
  intros Hf. split.
  { intros (d & w & h & i & i' & Hb & <- & E). exact (proj1 (crunch_only m d w h i msg i' Hb E)). }
  intros I. unfold crunch_errors in I. destruct I as [<-|I].
  { destruct (short_file f Hf) as [S1 S2]. exists (repeat 0 18 ++ [f]), 0, 0, [], []. split; [exact S1|]. split; [exact S2|]. reflexivity. }
  destruct (Z.ltb_spec 15 f) as [L|L]; [destruct I|].
  assert (reports (decode_crunch m) f msg \/ msg = lost /\ m = Wrapping /\ wide f = true /\ f <= 10) as [K|(-> & -> & W & Rf)]; [|exact K|].
  - pose proof crunch_covered as C. rewrite forallb_forall in C. specialize (C f (proj2 (in_zrange 0 16 f) ltac:(lia))).
    assert (forall msg, In msg (tl (crunch_errors Checked f)) -> reports (decode_crunch m) f msg) as K.
    { intros e He. apply reports_wrapping; [intros; apply ag_decode_crunch|]. exact (covers_inv _ f _ e Hf C He). }
    unfold crunch_errors in K. cbn [tl] in K. destruct (Z.ltb_spec 15 f); [lia|].
    destruct I as [<-|I]; [left; apply K; left; reflexivity|]. destruct (Z.leb_spec 11 f) as [R|R]; [left; apply K; right; exact I|].
    apply in_app_or in I as [I|I]; [|left; apply K; right; cbn [size_lost app]; exact I].
    right. unfold size_lost in I. destruct m; [destruct I|]. destruct (wide f); [|destruct I]. destruct I as [<-|[]]. repeat split; lia.
  - apply (lost_inv _ _ f Hf crunch_lost). assert (formats16 f) as C by (apply formats16_ok; lia). unfold formats16 in C. clear - C W Rf.
    repeat (destruct C as [->|C]; [first [lia|discriminate W|cbn [In]; lia]|]). lia.
Qed.
(** The same for Unity's variant. *)
Theorem C69_unity m f msg : 0 <= f < 256 ->
  (reports (decode_unity_crunch m) f msg <-> In msg (unity_errors m f)).
Proof.
  intros Hf. split.
  { intros (d & w & h & i & i' & Hb & <- & E). exact (proj1 (unity_only m d w h i msg i' Hb E)). }
  intros I. unfold unity_errors in I. destruct I as [<-|I].
  { destruct (short_file f Hf) as [S1 S2]. exists (repeat 0 18 ++ [f]), 0, 0, [], []. split; [exact S1|]. split; [exact S2|]. reflexivity. }
  destruct (Z.ltb_spec 15 f) as [L|L]; [destruct I|].
  assert (reports (decode_unity_crunch m) f msg \/ msg = lost /\ m = Wrapping /\ wide f = true) as [K|(-> & -> & W)]; [|exact K|].
  - pose proof unity_covered as C. rewrite forallb_forall in C. specialize (C f (proj2 (in_zrange 0 16 f) ltac:(lia))).
    assert (forall msg, In msg (tl (unity_errors Checked f)) -> reports (decode_unity_crunch m) f msg) as K.
    { intros e He. apply reports_wrapping; [intros; apply ag_decode_unity_crunch|]. exact (covers_inv _ f _ e Hf C He). }
    unfold unity_errors in K. cbn [tl] in K. destruct (Z.ltb_spec 15 f); [lia|].
    destruct I as [<-|I]; [left; apply K; left; reflexivity|]. destruct (Z.leb_spec 15 f) as [R|R]; [left; apply K; right; exact I|].
    apply in_app_or in I as [I|I]; [|left; apply K; right; cbn [size_lost app]; exact I].
    right. unfold size_lost in I. destruct m; [destruct I|]. destruct (wide f); [|destruct I]. destruct I as [<-|[]]. auto.
  - apply (lost_inv _ _ f Hf unity_lost). assert (formats16 f) as C by (apply formats16_ok; lia). unfold formats16 in C. clear - C W.
    repeat (destruct C as [->|C]; [first [discriminate W|cbn [In]; lia]|]). subst f. discriminate W.
Qed.
(** So these messages of the source are never seen. *)
Theorem C69_never m data w h image msg image' : bytes data ->
  In msg ["Data size is below the minimum allowed."; "Destination buffer size is smaller than what expected to decompress.";
          "Failed to initialize the decoding process."; "Invalid crunch format."; ""]%string ->
  decode_crunch m data w h image <> Ok (Failed msg, image') /\ decode_unity_crunch m data w h image <> Ok (Failed msg, image') /\
  decode_unity_crunch m data w h image <> Ok (Failed "Crunch Row size is below the minimum allowed.", image').
Proof.
  intros Hb I. pose proof (number_range data 18 1 Hb ltac:(lia)) as R. change (256 ^ 1) with 256 in R.
  assert (forall P : Z -> Prop, (forall f, 15 < f -> P f) -> (forall f, formats16 f -> P f) -> P (number data 18 1)) as Cases.
  { intros P H1 H2. destruct (Z.le_gt_cases (number data 18 1) 15); [apply H2, formats16_ok; lia|apply H1; lia]. }
  repeat split; intros E.
  - apply crunch_only in E as [E _]; [|exact Hb]. revert E. apply (Cases (fun f => In msg (crunch_errors m f) -> False)); intros f C.
    + unfold crunch_errors. destruct (Z.ltb_spec 15 f); [|lia]. cbn [In] in *. intros [<-|[]]. intuition discriminate.
    + unfold formats16 in C. repeat (destruct C as [->|C]; [destruct m; cbn [In] in I; cbn; intuition (subst; discriminate)|]). subst f. destruct m; cbn [In] in I; cbn; intuition (subst; discriminate).
  - apply unity_only in E as [E _]; [|exact Hb]. revert E. apply (Cases (fun f => In msg (unity_errors m f) -> False)); intros f C.
    + unfold unity_errors. destruct (Z.ltb_spec 15 f); [|lia]. cbn [In] in *. intros [<-|[]]. intuition discriminate.
    + unfold formats16 in C. repeat (destruct C as [->|C]; [destruct m; cbn [In] in I; cbn; intuition (subst; discriminate)|]). subst f. destruct m; cbn [In] in I; cbn; intuition (subst; discriminate).
  - apply unity_only in E as [E _]; [|exact Hb]. revert E. apply (Cases (fun f => In "Crunch Row size is below the minimum allowed."%string (unity_errors m f) -> False)); intros f C.
    + unfold unity_errors. destruct (Z.ltb_spec 15 f); [|lia]. cbn [In]. intros [K|[]]. discriminate K.
    + unfold formats16 in C. clear - C. repeat (destruct C as [->|C]; [destruct m; cbn; intuition discriminate|]). subst f. destruct m; cbn; intuition discriminate.
Qed.
Example C69_ex :
  bytes (tiny 10 8 1 162 [0; 0]) /\ decode_crunch Checked (tiny 10 8 1 162 [0; 0]) 8 8 [5] = Ok (Failed "Crunch Row size is below the minimum allowed.", [5]) /\
  decode_unity_crunch Wrapping (tiny 11 8 1 162 [255; 255]) 8 8 [5] = Ok (Failed "Failed to decode ETC1 Texture.", [5]) /\
  crunch_errors Wrapping 8 = ["Invalid crunch texture encoding."; "Failed to initialize Crunch decompressor."; "Destination buffer size is too small.";
    "Level offset mismatch."; "Failed to decord DXN Texture"; "Not enough data to decode image!"; "Image buffer is too small!"]%string.
Proof.
  split; [apply tiny_bytes; try lia; repeat (apply Forall_cons; [unfold is_byte; lia|]); apply Forall_nil|]. vm_compute. repeat split.
Qed.
Print Assumptions C69_crunch.
Print Assumptions C69_unity.
Print Assumptions C69_never.
