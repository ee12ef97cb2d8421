(** * Proofs about the Python bindings *)
From Verif Require Import Base BaseLemmas ModelColor SpecImage SpecPvrtc ModelPy SpecPy ModelAstc.

Lemma zlen_word_bytes l : zlen (flat_map word_bytes l) = 4 * zlen l.
Proof. induction l as [|v l IH]; [reflexivity|]. cbn [flat_map]. rewrite zlen_app, IH, zlen_cons. unfold word_bytes, zlen. cbn [length]. lia. Qed.
Lemma word_byte v c : 0 <= c < 4 -> znth (word_bytes v) c = v / 256 ^ c mod 256.
Proof.
  intros H. unfold word_bytes, u8. rewrite !shr_div by lia. assert (c = 0 \/ c = 1 \/ c = 2 \/ c = 3) as [-> | [-> | [-> | ->]]] by lia.
  - change (256 ^ 0) with 1. rewrite Z.div_1_r. reflexivity.
  - reflexivity.
  - reflexivity.
  - reflexivity.
Qed.
Lemma znth_word_bytes l : forall i c, 0 <= i < zlen l -> 0 <= c < 4 ->
  znth (flat_map word_bytes l) (4 * i + c) = znth l i / 256 ^ c mod 256.
Proof.
  induction l as [|v l IH]; intros i c Hi Hc.
  { unfold zlen in Hi. cbn [length] in Hi. lia. }
  rewrite zlen_cons in Hi. cbn [flat_map]. assert (zlen (word_bytes v) = 4) as L by reflexivity.
  destruct (Z.eq_dec i 0) as [-> | N].
  - rewrite znth_app1 by lia. rewrite word_byte by lia. reflexivity.
  - rewrite znth_app2 by lia. rewrite L. replace (4 * i + c - 4) with (4 * (i - 1) + c) by lia. rewrite IH by lia.
    f_equal. f_equal. unfold znth. replace (Z.to_nat i) with (S (Z.to_nat (i - 1))) by lia. reflexivity.
Qed.

Section Sane.
Variables (m : build) (data : list Z) (w h : Z) (beyond : list Z).
Hypothesis HS : py_sane data w h beyond.

Lemma py_size_ok : py_size m w h = Ok (4 * (w * h)) /\ 0 <= w * h.
Proof.
  destruct HS as (_ & W & H & S & _). assert (0 <= w * h) by (apply Z.mul_nonneg_nonneg; lia).
  unfold py_size. rewrite ua_ok by lia. cbn [bind]. rewrite ua_ok by lia. split; [f_equal; lia|assumption].
Qed.
Lemma quarter : 4 * (w * h) / 4 = w * h.
Proof. rewrite Z.mul_comm. apply Z.div_mul. lia. Qed.
Lemma zlen_py_image : zlen (py_image (4 * (w * h)) beyond) = 4 * (w * h).
Proof.
  destruct py_size_ok as [_ P]. destruct HS as (_ & W & H & S & B). unfold py_image. rewrite quarter, zlen_app, B. unfold zlen at 1. rewrite repeat_length. lia.
Qed.
Lemma py_beyond_same image' : zlen image' = 4 * (w * h) ->
  (forall j, w * h <= j < 4 * (w * h) -> znth image' j = znth (py_image (4 * (w * h)) beyond) j) ->
  py_beyond (4 * (w * h)) image' = beyond.
Proof.
  intros L F. destruct py_size_ok as [_ P]. destruct HS as (_ & W & H & S & B).
  assert (zlen (py_beyond (4 * (w * h)) image') = zlen beyond) as LB.
  { unfold py_beyond. rewrite quarter, zlen_skipn. lia. }
  apply znth_ext; [exact LB|]. intros i Hi. unfold py_beyond. rewrite quarter, znth_skipn by lia. rewrite F by lia.
  unfold py_image. rewrite quarter, znth_app2; unfold zlen at 1; rewrite repeat_length; [|lia]. f_equal. lia.
Qed.
Lemma py_bytes_picture image' pixel : zlen image' = 4 * (w * h) ->
  (forall x y, 0 <= x < w -> 0 <= y < h -> znth image' (y * w + x) = pixel x y) ->
  picture_bytes w h pixel (py_bytes (4 * (w * h)) image').
Proof.
  intros L F. destruct py_size_ok as [_ P]. unfold py_bytes. rewrite quarter.
  assert (zlen (firstn (Z.to_nat (w * h)) image') = w * h) as LF by (rewrite zlen_firstn; lia).
  split.
  - rewrite zlen_word_bytes, LF. reflexivity.
  - intros x y c Hx Hy Hc. assert (0 <= y * w + x < w * h) as Q by nia.
    rewrite znth_word_bytes by lia. rewrite znth_firstn by lia. rewrite F by assumption. reflexivity.
Qed.
Lemma py_zeros : py_bytes (4 * (w * h)) (py_image (4 * (w * h)) beyond) = repeat 0 (Z.to_nat (4 * (w * h))).
Proof.
  destruct py_size_ok as [_ P]. unfold py_bytes, py_image. rewrite quarter.
  rewrite firstn_app, repeat_length, Nat.sub_diag. cbn [firstn]. rewrite app_nil_r, firstn_all2 by (rewrite repeat_length; lia).
  replace (Z.to_nat (4 * (w * h))) with (4 * Z.to_nat (w * h))%nat by lia.
  induction (Z.to_nat (w * h)) as [|n IH]; [reflexivity|].
  replace (4 * S n)%nat with (S (S (S (S (4 * n))))) by lia. cbn [repeat flat_map word_bytes app]. rewrite IH. reflexivity.
Qed.
(** The object when the decoder stores a picture, or reports an error. *)
Lemma pybind_done decode image' pixel :
  decode data w h (py_image (4 * (w * h)) beyond) = Ok (Done, image') -> zlen image' = zlen (py_image (4 * (w * h)) beyond) ->
  (forall x y, 0 <= x < w -> 0 <= y < h -> znth image' (y * w + x) = pixel x y) ->
  (forall j, w * h <= j < zlen (py_image (4 * (w * h)) beyond) -> znth image' j = znth (py_image (4 * (w * h)) beyond) j) ->
  exists out, pybind m decode data w h beyond = Ok (Returns out, beyond) /\ picture_bytes w h pixel out.
Proof.
  intros E L F G. rewrite zlen_py_image in L, G. unfold pybind. rewrite (proj1 py_size_ok). cbn [bind]. rewrite E. cbn [bind].
  rewrite py_beyond_same by assumption. eexists. split; [reflexivity|]. apply py_bytes_picture; assumption.
Qed.
Lemma pybind_failed decode msg :
  decode data w h (py_image (4 * (w * h)) beyond) = Ok (Failed msg, py_image (4 * (w * h)) beyond) ->
  pybind m decode data w h beyond = Ok (Raises msg, beyond).
Proof.
  intros E. unfold pybind. rewrite (proj1 py_size_ok). cbn [bind]. rewrite E. cbn [bind].
  rewrite py_beyond_same; auto. apply zlen_py_image.
Qed.
Lemma py_room : w * h <= zlen (py_image (4 * (w * h)) beyond) /\ 4 * zlen (py_image (4 * (w * h)) beyond) < 2 ^ 63.
Proof. destruct py_size_ok as [_ P]. destruct HS as (_ & W & H & S & B). rewrite zlen_py_image. lia. Qed.
End Sane.

Lemma py_image_decoder m bw bh raw tex dec : image_decoder bw bh raw tex dec -> py_decoder bw bh raw tex (pybind m dec).
Proof.
  intros ID data w h beyond HS HN. destruct (py_size_ok m data w h beyond HS) as [_ P]. destruct (py_room m data w h beyond HS) as [R1 R2].
  pose proof HS as (Hb & W & H & S & _).
  destruct (ID data w h (py_image (4 * (w * h)) beyond) Hb W H R2 HN ltac:(lia)) as (A & _ & B). split; intros D.
  - apply pybind_failed; auto.
  - destruct (B D R1) as (image' & E & L & F & G). exact (pybind_done m data w h beyond HS dec image' _ E L F G).
Qed.
