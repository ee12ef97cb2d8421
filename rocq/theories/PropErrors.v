(** * C62: a decoder that reports an error has not touched the image *)
From Verif Require Import Base BaseLemmas ModelColor ModelBc ModelBc6 ModelBc7 ModelEtc ModelPvrtc ModelAstc ModelCrn ModelCrunch ModelUnity SpecFormats ProofNoErr ProofAstcNoErr.

(** For all data, all sizes (also those whose products overflow) and images:
    an error comes with one of the given messages, and with the image as it was. *)
Definition clean_errors (msgs : list string) (f : build -> list Z -> Z -> Z -> list Z -> res (status * list Z)) : Prop :=
  forall m data w h image e image', f m data w h image = Ok (Failed e, image') -> image' = image /\ In e msgs.
(** They report errors in no other way. *)
Definition only_statuses (f : build -> list Z -> Z -> Z -> list Z -> res (status * list Z)) : Prop :=
  forall m data w h image e, f m data w h image <> Err e.

Definition clean (msgs : list string) (image : list Z) (r : res (status * list Z)) : Prop :=
  forall e im, r = Ok (Failed e, im) -> im = image /\ In e msgs.
Lemma cl_bind {A} msgs image (x : res A) f : (forall a, clean msgs image (f a)) -> clean msgs image (bind x f).
Proof. intros H e im E. apply bind_ok_inv in E as (a & _ & E). exact (H a e im E). Qed.
Lemma cl_failed msgs image e : In e msgs -> clean msgs image (Ok (Failed e, image)).
Proof. intros H e' im E. assert (e' = e /\ im = image) as [-> ->] by (split; congruence). auto. Qed.
Lemma cl_done msgs image im : clean msgs image (Ok (Done, im)).
Proof. intros e' im' E. discriminate E. Qed.
Lemma cl_panic msgs image : clean msgs image Panic.
Proof. intros e' im' E. discriminate E. Qed.
Lemma cl_more msgs msgs' image r : (forall e, In e msgs -> In e msgs') -> clean msgs image r -> clean msgs' image r.
Proof. intros H K e im E. destruct (K e im E). auto. Qed.
Ltac cl_step :=
  match goal with
  | |- forall _, _ => intro
  | |- clean _ _ (bind _ _) => apply cl_bind
  | |- clean _ _ (Ok (Done, _)) => apply cl_done
  | |- clean _ _ (Ok (Failed _, _)) => apply cl_failed; cbn [In]; tauto
  | |- clean _ _ Panic => apply cl_panic
  | |- clean _ _ (let x := _ in _) => cbv zeta
  | |- clean _ _ (match ?x with _ => _ end) => destruct x
  end.
Definition block_messages : list string := ["Not enough data to decode image!"; "Image buffer is too small!"]%string.
Lemma cl_blocks m bw bh raw bd data w h image : clean block_messages image (block_decoder m bw bh raw bd data w h image).
Proof. unfold block_decoder. cbv zeta. unfold block_messages. repeat cl_step. Qed.
Definition pvrtc_messages : list string :=
  ["The data buffer is too small!"; "The image buffer is too small!"; "The number of blocks of each side must be a power of 2!"]%string.
Lemma cl_pvrtc m data w h image b : clean pvrtc_messages image (decode_pvrtc m data w h image b).
Proof. unfold decode_pvrtc. unfold pvrtc_messages. repeat cl_step. Qed.
Definition astc_messages : list string := block_messages ++ ["Block size is too big!"%string].
Lemma cl_astc m data w h bw bh image : clean astc_messages image (decode_astc m data w h bw bh image).
Proof. unfold decode_astc, astc_messages, block_messages. cbn [app]. repeat cl_step. Qed.

Lemma cl_level msgs e image k : (forall f d, clean msgs image (k f d)) -> forall e' im,
  with_level e image k = Ok (Failed e', im) -> im = image.
Proof.
  intros H e' im E. destruct e as [[f d]|msg|]; cbn [with_level] in E; [|congruence|discriminate]. apply (H f d e' im E).
Qed.
Definition bcn_atc := [decode_bc1; decode_bc1a; decode_bc2; decode_bc3; decode_bc4; decode_bc5; decode_bc6_signed; decode_bc6_unsigned; decode_bc7;
   decode_atc_rgb4; decode_atc_rgba8].
Definition etc_eac := [decode_etc1; decode_etc2_rgb; decode_etc2_rgba1; decode_etc2_rgba8; decode_eacr; decode_eacr_signed; decode_eacrg; decode_eacrg_signed].

Theorem C62_block_formats : Forall (clean_errors block_messages) (bcn_atc ++ etc_eac).
Proof.
  unfold bcn_atc, etc_eac. cbn [app]. repeat (apply Forall_nil || (apply Forall_cons; [intros m data w h image; apply cl_blocks|])).
Qed.
Theorem C62_pvrtc : Forall (clean_errors pvrtc_messages) [decode_pvrtc_2bpp; decode_pvrtc_4bpp].
Proof. repeat (apply Forall_nil || (apply Forall_cons; [intros m data w h image; apply cl_pvrtc|])). Qed.
Theorem C62_astc bw bh : clean_errors astc_messages (fun m data w h image => decode_astc m data w h bw bh image).
Proof. intros m data w h image. apply cl_astc. Qed.
(** Crunch files; the messages are the subject of C69. *)
Theorem C62_crunch m data w h image e image' :
  (decode_crunch m data w h image = Ok (Failed e, image') -> image' = image) /\
  (decode_unity_crunch m data w h image = Ok (Failed e, image') -> image' = image).
Proof.
  split; intros E.
  - unfold decode_crunch in E. revert e image' E. eapply (cl_level ("Invalid crunch format."%string :: block_messages)).
    intros f d. repeat (cl_step || (eapply cl_more; [|apply cl_blocks]; intros; right; assumption)).
  - unfold decode_unity_crunch in E. revert e image' E. eapply (cl_level ("Invalid crunch format."%string :: block_messages)).
    intros f d. repeat (cl_step || (eapply cl_more; [|apply cl_blocks]; intros; right; assumption)).
Qed.

(** No `Err` value besides. *)
#[local] Hint Resolve ne_ok ne_panic ne_ua ne_ia ne_sh ne_ushl ne_ushr ne_ishl ne_idx ne_upd ne_slice ne_slice_from ne_copy_into ne_mode_loop ne_copy_block : ne.
Lemma ne_morton_loop m n : forall x y d o s k, no_err (morton_loop m n x y d o s k).
Proof. induction n; intros; cbn [morton_loop]; [apply ne_panic|]. repeat (apply IHn || ne_step). Qed.
#[local] Hint Resolve ne_morton_loop : ne.
Lemma ne_morton m x y d : no_err (morton_index m x y d). Proof. ne_tac. Qed.
Lemma ne_infos m d n b : no_err (pvr_infos m d n b). Proof. ne_tac. Qed.
Lemma ne_color2 m l b : no_err (applicate_color_2bpp m l b). Proof. ne_tac. Qed.
Lemma ne_color4 m l b : no_err (applicate_color_4bpp m l b). Proof. ne_tac. Qed.
#[local] Hint Resolve ne_morton ne_infos ne_color2 ne_color4 : ne.
Lemma ne_pvrtc m data w h image b : no_err (decode_pvrtc m data w h image b). Proof. ne_tac. Qed.
Lemma ne_blocks m bw bh raw bd data w h image : (forall d b, no_err (bd d b)) -> no_err (block_decoder m bw bh raw bd data w h image).
Proof. intros H. unfold block_decoder. repeat (apply H || ne_step). Qed.
Lemma ne_bc6 m data buf b : no_err (decode_bc6_block m data buf b). Proof. ne_tac. Qed.
Lemma ne_level e image k : (forall f d, no_err (k f d)) -> no_err (with_level e image k).
Proof. intros H. destruct e as [[f d]| |]; cbn [with_level]; [apply H|apply ne_ok|apply ne_panic]. Qed.
Theorem C62_no_other_errors : Forall only_statuses (bcn_atc ++ etc_eac ++ [decode_pvrtc_2bpp; decode_pvrtc_4bpp; decode_crunch; decode_unity_crunch]) /\
  forall bw bh, only_statuses (fun m data w h image => decode_astc m data w h bw bh image).
Proof.
  split; [|intros bw bh m data w h image; apply ne_astc].
  unfold bcn_atc, etc_eac. cbn [app].
  repeat (apply Forall_cons; [intros m data w h image|]); try apply Forall_nil.
  all: match goal with
  | |- forall e, decode_pvrtc_2bpp _ _ _ _ _ <> _ => apply ne_pvrtc
  | |- forall e, decode_pvrtc_4bpp _ _ _ _ _ <> _ => apply ne_pvrtc
  | |- forall e, decode_bc6_signed _ _ _ _ _ <> _ => apply ne_blocks; intros; apply ne_bc6
  | |- forall e, decode_bc6_unsigned _ _ _ _ _ <> _ => apply ne_blocks; intros; apply ne_bc6
  | |- forall e, decode_crunch _ _ _ _ _ <> _ => apply ne_level; intros f d
  | |- forall e, decode_unity_crunch _ _ _ _ _ <> _ => apply ne_level; intros f d
  | |- forall e, ?f ?m _ _ _ _ <> _ => unfold f; apply ne_blocks; ne_tac
  end.
  all: repeat match goal with
  | |- no_err (if ?b then _ else _) => destruct b
  | |- no_err (Ok _) => apply ne_ok
  | |- no_err (?f ?m _ _ _ _) => unfold f; apply ne_blocks; ne_tac
  end.
Qed.
Example C62_ex :
  decode_bc1 Wrapping [1; 2] 4 4 [5; 6] = Ok (Failed "Not enough data to decode image!", [5; 6]) /\
  decode_pvrtc_4bpp Checked (repeat 0 96) 12 4 (repeat 1 48) = Ok (Failed "The number of blocks of each side must be a power of 2!", repeat 1 48) /\
  decode_astc Checked (repeat 0 16) 16 16 16 16 (repeat 3 256) = Ok (Failed "Block size is too big!", repeat 3 256) /\
  decode_crunch Checked (repeat 0 100) 4 4 [7] = Ok (Failed "Invalid crunch texture encoding.", [7]).
Proof. vm_compute. repeat split. Qed.
Print Assumptions C62_block_formats.
Print Assumptions C62_pvrtc.
Print Assumptions C62_astc.
Print Assumptions C62_crunch.
Print Assumptions C62_no_other_errors.
