(** * Block functions return normally or panic: they never produce an `Err` *)
From Verif Require Import Base BaseLemmas ModelColor ModelBits ModelBc ModelEtc ModelBc7 SpecFormats.

Definition no_err {A} (r : res A) : Prop := forall e, r <> Err e.

Lemma ne_ok {A} (a : A) : no_err (Ok a).
Proof. discriminate. Qed.
Lemma ne_panic {A} : no_err (@Panic A).
Proof. discriminate. Qed.
Lemma ne_bind {A B} (x : res A) (f : A -> res B) : no_err x -> (forall a, no_err (f a)) -> no_err (bind x f).
Proof. intros H K e E. destruct x; cbn [bind] in E; [apply (K a e E)|apply (H msg); auto|discriminate]. Qed.
Lemma ne_ua m w x : no_err (ua m w x).
Proof. unfold ua. destruct (_ && _); [apply ne_ok|]. destruct m; [apply ne_panic|apply ne_ok]. Qed.
Lemma ne_ia m w x : no_err (ia m w x).
Proof. unfold ia. destruct (_ && _); [apply ne_ok|]. destruct m; [apply ne_panic|apply ne_ok]. Qed.
Lemma ne_sh m w x : no_err (sh_amt m w x).
Proof. unfold sh_amt. destruct (_ && _); [apply ne_ok|]. destruct m; [apply ne_panic|apply ne_ok]. Qed.
Lemma ne_ushl m w x s : no_err (ushl m w x s).
Proof. apply ne_bind; [apply ne_sh|intros; apply ne_ok]. Qed.
Lemma ne_ushr m w x s : no_err (ushr m w x s).
Proof. apply ne_bind; [apply ne_sh|intros; apply ne_ok]. Qed.
Lemma ne_ishl m w x s : no_err (ishl m w x s).
Proof. apply ne_bind; [apply ne_sh|intros; apply ne_ok]. Qed.
Lemma ne_idx {A} (l : list A) i : no_err (idx l i).
Proof. unfold idx. destruct (0 <=? i); [|apply ne_panic]. destruct (nth_error _ _); [apply ne_ok|apply ne_panic]. Qed.
Lemma ne_upd {A} (l : list A) i v : no_err (upd l i v).
Proof. unfold upd. destruct (_ && _); [apply ne_ok|apply ne_panic]. Qed.
Lemma ne_slice {A} (l : list A) a b : no_err (slice l a b).
Proof. unfold slice. destruct (_ && _); [apply ne_ok|apply ne_panic]. Qed.
Lemma ne_slice_from {A} (l : list A) a : no_err (slice_from l a).
Proof. unfold slice_from. destruct (_ && _); [apply ne_ok|apply ne_panic]. Qed.
Lemma ne_copy_into {A} (l : list A) a s : no_err (copy_into l a s).
Proof. unfold copy_into. destruct (_ && _); [apply ne_ok|apply ne_panic]. Qed.
Lemma ne_for_list {A S} (l : list A) (f : A -> S -> res S) : (forall a s, no_err (f a s)) -> forall s, no_err (for_list l f s).
Proof. intros H. induction l; intros s; cbn [for_list]; [apply ne_ok|]. apply ne_bind; auto. Qed.
Lemma ne_for_range {S} lo hi (f : Z -> S -> res S) s : (forall a s, no_err (f a s)) -> no_err (for_range lo hi f s).
Proof. intros H. apply ne_for_list; auto. Qed.

Create HintDb ne discriminated.
#[local] Hint Resolve ne_ok ne_panic ne_ua ne_ia ne_sh ne_ushl ne_ushr ne_ishl ne_idx ne_upd ne_slice ne_slice_from ne_copy_into : ne.

Ltac ne_head t := match t with ?f _ => ne_head f | _ => t end.
Ltac ne_step :=
  match goal with
  | |- forall _, _ => intro
  | |- no_err (bind _ _) => apply ne_bind
  | |- no_err (for_range _ _ _ _) => apply ne_for_range
  | |- no_err (for_list _ _ _) => apply ne_for_list
  | |- no_err _ => solve [auto with ne nocore]
  | |- no_err (let x := _ in _) => cbv zeta
  | |- no_err (match ?x with _ => _ end) => destruct x
  | |- no_err ?t => let h := ne_head t in unfold h
  end.
Ltac ne_tac := repeat ne_step.

Lemma ne_mode_loop m fuel : forall d p k, no_err (bc7_mode_loop m fuel d p k).
Proof. induction fuel; intros; cbn [bc7_mode_loop]; [apply ne_panic|]. repeat (apply IHfuel || ne_step). Qed.
#[local] Hint Resolve ne_mode_loop : ne.

Lemma formats_ne m : Forall (fun f : fmt => let '(raw, bd, dec) := f in forall data buf, no_err (bd data buf)) (formats m).
Proof.
  unfold formats. repeat (apply Forall_cons; [|]); try apply Forall_nil; ne_tac.
Qed.

Lemma ne_copy_block m bx by_ w h bw bh b i : no_err (copy_block_buffer m bx by_ w h bw bh b i).
Proof. ne_tac. Qed.
