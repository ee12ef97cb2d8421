(** * Deciding the side conditions of written files, for the examples. *)
From Verif Require Import Base BaseLemmas ModelCrn SpecCrn SpecCrnHeader SpecCrnLevel SpecCrnFile.

Definition code_lengthsb (sizes : list Z) : bool :=
  (1 <=? zlen sizes) && (zlen sizes <=? 8192) && forallb (fun l => (0 <=? l) && (l <=? 16)) sizes &&
  (sum (map share sizes) <=? 2 ^ 16).
Lemma code_lengthsb_ok sizes : code_lengthsb sizes = true -> code_lengths sizes.
Proof.
  unfold code_lengthsb. intros H. apply andb_prop in H. destruct H as [H H4]. apply andb_prop in H. destruct H as [H H3].
  apply andb_prop in H. destruct H as [H1 H2]. split; [lia|]. split; [|lia].
  apply Forall_forall. intros x Hx. rewrite forallb_forall in H3. specialize (H3 x Hx). lia.
Qed.
Definition codedb (sizes : list Z) (s : Z) : bool := (0 <=? s) && (s <? zlen sizes) && negb (znth sizes s =? 0).
Lemma codedb_ok sizes s : codedb sizes s = true -> coded sizes s.
Proof. unfold codedb. intros H. split; lia. Qed.
Definition item_okb (i : item) : bool :=
  match i with
  | Sym sizes s => code_lengthsb sizes && codedb sizes s
  | Raw n v => (0 <=? n) && (n <=? 16) && (0 <=? v) && (v <? 2 ^ n)
  end.
Lemma item_okb_ok i : item_okb i = true -> item_ok i.
Proof.
  destruct i as [sizes s|n v]; cbn [item_okb item_ok]; intros H.
  - apply andb_prop in H. destruct H. split; [apply code_lengthsb_ok|apply codedb_ok]; assumption.
  - lia.
Qed.
Lemma items_okb_ok l : forallb item_okb l = true -> Forall item_ok l.
Proof. intros H. apply Forall_forall. intros x Hx. rewrite forallb_forall in H. apply item_okb_ok, H, Hx. Qed.

Definition bytesb (l : list Z) : bool := forallb (fun b => (0 <=? b) && (b <? 256)) l.
Lemma bytesb_ok l : bytesb l = true -> bytes l.
Proof. intros H. apply Forall_forall. intros x Hx. unfold bytesb in H. rewrite forallb_forall in H. specialize (H x Hx). unfold is_byte. lia. Qed.

(** The items of a transmission. *)
Definition sending (sizes cl : list Z) (num : Z) (items : list item) : list item :=
  Raw 14 (zlen sizes) :: Raw 5 num :: map (fun k => Raw 3 (znth cl k)) (firstn (Z.to_nat num) length_order) ++ items.
Lemma sending_ok sizes cl num items : 1 <= num <= 21 -> zlen cl = 21 ->
  forallb (fun k => znth cl k =? 0) (skipn (Z.to_nat num) length_order) = true ->
  spells cl [] items sizes -> sends sizes (sending sizes cl num items).
Proof.
  intros H1 H2 H3 H4. apply sends_intro; [exact H1|exact H2| |exact H4]. intros k Hk. rewrite forallb_forall in H3. specialize (H3 k Hk). lia.
Qed.

Fixpoint prefixb (a b : list bool) : bool :=
  match a, b with [], _ => true | x :: a', y :: b' => Bool.eqb x y && prefixb a' b' | _, [] => false end.
Lemma prefixb_ok : forall a b, prefixb a b = true -> b = a ++ skipn (length a) b.
Proof.
  induction a as [|x a IH]; intros b H; [reflexivity|]. destruct b as [|y b]; [discriminate|]. cbn [prefixb] in H.
  apply andb_prop in H. destruct H as [H1 H2]. apply Bool.eqb_prop in H1. subst y. cbn [length skipn app]. f_equal. apply IH, H2.
Qed.
Lemma holds_ok data ofs size items : 0 <= ofs -> 1 <= size -> ofs + size < zlen data -> forallb item_okb items = true ->
  prefixb (flat_map item_bits items) (bit_stream (section data ofs size)) = true -> holds data ofs size items.
Proof.
  intros H1 H2 H3 H4 H5. split; [exact H1|]. split; [exact H2|]. split; [lia|]. split; [apply items_okb_ok, H4|].
  eexists. split; [apply prefixb_ok, H5|right; exact H3].
Qed.

(** Functions given by tables. *)
Definition table (l : list (list Z)) (i j : Z) : Z := znth (nth (Z.to_nat i) l []) j.
Lemma table_range l n i j : 0 < n -> forallb (forallb (fun v => (0 <=? v) && (v <? n))) l = true -> 0 <= table l i j < n.
Proof.
  intros Hn H. unfold table, znth. rewrite forallb_forall in H.
  destruct (Nat.lt_ge_cases (Z.to_nat i) (length l)) as [K|K].
  - specialize (H _ (nth_In l [] K)). set (r := nth (Z.to_nat i) l []) in *. rewrite forallb_forall in H.
    destruct (Nat.lt_ge_cases (Z.to_nat j) (length r)) as [K'|K']; [specialize (H _ (nth_In r 0 K')); lia|].
    rewrite (nth_overflow r) by exact K'. lia.
  - rewrite (nth_overflow l) by exact K. destruct (Z.to_nat j); cbn [nth]; lia.
Qed.
