(** * Proofs about the BC7 decoder *)
From Verif Require Import Base BaseLemmas BitLemmas FieldLemmas ModelColor SpecImage ProofDecoder ModelBits SpecBits
  ProofBits ModelBptc SpecBptc SpecBc ProofBc ModelBc7 SpecBc7.

(** ** Sweeps over modes, partitions and texels *)
Definition resz_eqb (x : res (Z * Z)) (a b : Z) : bool :=
  match x with Ok (c, d) => (c =? a) && (d =? b) | _ => false end.
Lemma resz_eqb_eq x a b : resz_eqb x a b = true -> x = Ok (a, b).
Proof.
  destruct x as [[c d]| |]; cbn; try discriminate. intros H. apply andb_true_iff in H as [H1 H2].
  apply Z.eqb_eq in H1, H2. congruence.
Qed.

Definition nbits (mode part t n : Z) : Z := n - if is_anchor mode part t then 1 else 0.
Definition off0 (mode part t : Z) : Z := IB mode * t - anchors_below mode part t.
Definition off1 (mode part t : Z) : Z :=
  NS mode * (16 * IB mode - 1) + (if IB2 mode =? 0 then 0 else IB2 mode * t - anchors_below mode part t).

Definition check (mode part t : Z) : bool :=
  resz_eqb (bc7_subset Checked (NS mode) part t) (subset mode part t) (anchor mode part (subset mode part t)) &&
  resz_eqb (bc7_subset Wrapping (NS mode) part t) (subset mode part t) (anchor mode part (subset mode part t)) &&
  (0 <=? subset mode part t) && (subset mode part t <? NS mode) &&
  (off0 mode part (t + 1) =? off0 mode part t + nbits mode part t (IB mode)) &&
  (off1 mode part (t + 1) =? off1 mode part t + (if IB2 mode =? 0 then 0 else nbits mode part t (IB2 mode))) &&
  (0 <=? off0 mode part t) && (0 <=? off1 mode part t) && (off1 mode part (t + 1) <=? 1000) &&
  (o_index mode + off0 mode part (t + 1) <=? 128) &&
  ((IB2 mode =? 0) || ((o_index mode + off1 mode part t =? o_index2 mode + IB2 mode * t - anchors_below mode part t) &&
     (o_index mode + off1 mode part (t + 1) <=? 128))).

Lemma check_all : all_below 8 (fun mode => all_below (2 ^ PB mode) (fun part => all_below 16 (check mode part))) = true.
Proof. vm_cast_no_check (eq_refl true). Qed.

Lemma check_ok mode part t : 0 <= mode < 8 -> 0 <= part < 2 ^ PB mode -> 0 <= t < 16 -> check mode part t = true.
Proof.
  intros H1 H2 H3. pose proof (all_below_spec _ _ check_all mode H1) as A. cbv beta in A.
  pose proof (all_below_spec _ _ A part H2) as B. cbv beta in B. exact (all_below_spec _ _ B t H3).
Qed.

Lemma check_facts m mode part t : 0 <= mode < 8 -> 0 <= part < 2 ^ PB mode -> 0 <= t < 16 ->
  bc7_subset m (NS mode) part t = Ok (subset mode part t, anchor mode part (subset mode part t)) /\
  0 <= subset mode part t < NS mode /\
  off0 mode part (t + 1) = off0 mode part t + nbits mode part t (IB mode) /\
  off1 mode part (t + 1) = off1 mode part t + (if IB2 mode =? 0 then 0 else nbits mode part t (IB2 mode)) /\
  0 <= off0 mode part t /\ 0 <= off1 mode part t /\ off1 mode part (t + 1) <= 1000 /\
  o_index mode + off0 mode part (t + 1) <= 128 /\
  (IB2 mode = 0 \/ (o_index mode + off1 mode part t = o_index2 mode + IB2 mode * t - anchors_below mode part t /\
     o_index mode + off1 mode part (t + 1) <= 128)).
Proof.
  intros H1 H2 H3. pose proof (check_ok mode part t H1 H2 H3) as C. unfold check in C.
  repeat (apply andb_true_iff in C as [C ?]).
  repeat match goal with H : (_ <=? _) = true |- _ => apply Z.leb_le in H end.
  repeat match goal with H : (_ <? _) = true |- _ => apply Z.ltb_lt in H end.
  repeat match goal with H : (_ =? _) = true |- _ => apply Z.eqb_eq in H end.
  split; [destruct m; apply resz_eqb_eq; auto|].
  do 7 (split; [auto|]).
  match goal with H : (_ || _) = true |- _ => apply orb_true_iff in H as [H|H]; [left; apply Z.eqb_eq; auto|right] end.
  match goal with H : (_ && _) = true |- _ => apply andb_true_iff in H as [E F] end.
  apply Z.eqb_eq in E. apply Z.leb_le in F. auto.
Qed.

Lemma expand_sweep : all_below 9 (fun n => (n <? 4) || all_below (2 ^ n) (fun v =>
  match expand_quantized Checked v n, expand_quantized Wrapping v n with
  | Ok x, Ok y => (x =? expand8 n v) && (y =? expand8 n v) && (0 <=? x) && (x <? 256) | _, _ => false end)) = true.
Proof. vm_cast_no_check (eq_refl true). Qed.

Lemma expand_ok m n v : 4 <= n <= 8 -> 0 <= v < 2 ^ n ->
  expand_quantized m v n = Ok (expand8 n v) /\ 0 <= expand8 n v < 256.
Proof.
  intros Hn Hv. pose proof (all_below_spec _ _ expand_sweep n ltac:(lia)) as A. cbv beta in A.
  destruct (Z.ltb_spec n 4); [lia|]. cbn [orb] in A.
  pose proof (all_below_spec _ _ A v Hv) as B. cbv beta in B.
  destruct (expand_quantized Checked v n) eqn:E1; try discriminate.
  destruct (expand_quantized Wrapping v n) eqn:E2; try discriminate.
  repeat (apply andb_true_iff in B as [B ?]).
  apply Z.eqb_eq in B, H2. apply Z.leb_le in H1. apply Z.ltb_lt in H0. subst.
  destruct m; rewrite ?E1, ?E2; (split; [auto|lia]).
Qed.

Lemma weight_sweep : all_below 5 (fun n => (n <? 2) || all_below (2 ^ n) (fun k =>
  match idx S_BPTC_FACTORS (n - 2) with
  | Ok f => match idx f k with Ok w => (w =? znth (weights n) k) && (0 <=? w) && (w <=? 64) | _ => false end
  | _ => false end)) = true.
Proof. vm_cast_no_check (eq_refl true). Qed.
Lemma weight_ok n k f : 2 <= n <= 4 -> 0 <= k < 2 ^ n -> idx S_BPTC_FACTORS (n - 2) = Ok f ->
  idx f k = Ok (znth (weights n) k) /\ 0 <= znth (weights n) k <= 64.
Proof.
  intros Hn Hk Hf. pose proof (all_below_spec _ _ weight_sweep n ltac:(lia)) as A. cbv beta in A.
  destruct (Z.ltb_spec n 2); [lia|]. cbn [orb] in A.
  pose proof (all_below_spec _ _ A k Hk) as B. cbv beta in B. rewrite Hf in B.
  destruct (idx f k) eqn:E; try discriminate.
  repeat (apply andb_true_iff in B as [B ?]). apply Z.eqb_eq in B. apply Z.leb_le in H0, H1. subst. split; [auto|lia].
Qed.

(** ** Loops over end points *)
Lemma tab6 f : tab 6 f = [f 0; f 1; f 2; f 3; f 4; f 5].
Proof. reflexivity. Qed.

Lemma nested16 {S} (body : Z -> Z -> S -> res S) s :
  for_range 0 4 (fun yy s => for_range 0 4 (fun xx s => body yy xx s) s) s =
  for_range 0 16 (fun t s => body (t / 4) (t mod 4) s) s.
Proof.
  change (for_range 0 16 (fun t s => body (t / 4) (t mod 4) s) s) with
    (let* s := body 0 0 s in let* s := body 0 1 s in let* s := body 0 2 s in let* s := body 0 3 s in
     let* s := body 1 0 s in let* s := body 1 1 s in let* s := body 1 2 s in let* s := body 1 3 s in
     let* s := body 2 0 s in let* s := body 2 1 s in let* s := body 2 2 s in let* s := body 2 3 s in
     let* s := body 3 0 s in let* s := body 3 1 s in let* s := body 3 2 s in let* s := body 3 3 s in Ok s).
  unfold for_range. change (zrange 0 4) with [0; 1; 2; 3]. cbn [for_list].
  do 16 (match goal with |- context [bind (body ?a ?b ?x) _] =>
    destruct (body a b x) as [?s| |]; cbn [bind]; [|reflexivity|reflexivity] end).
  reflexivity.
Qed.

Lemma ok5 {A B C D E : Type} (a a' : A) (b b' : B) (c c' : C) (d d' : D) (e e' : E) :
  a = a' -> b = b' -> c = c' -> d = d' -> e = e' -> Ok (a, b, c, d, e) = Ok (a', b', c', d', e').
Proof. congruence. Qed.
Lemma list6 (a b c d e f a' b' c' d' e' f' : Z) : a = a' -> b = b' -> c = c' -> d = d' -> e = e' -> f = f' ->
  [a; b; c; d; e; f] = [a'; b'; c'; d'; e'; f'].
Proof. congruence. Qed.

Section Block.
Context (m : build) (data b : list Z).
Hypothesis Hread : forall pos n, 0 <= pos -> 0 <= n <= 15 -> pos + n <= 128 ->
  read m data pos n = Ok (bits b pos n, pos + n).
Hypothesis Hpeek : forall pos off n, 0 <= pos -> 0 <= off -> 0 <= n <= 15 -> pos + off + n <= 128 ->
  peek m data pos off n = Ok (bits b (pos + off) n).

Lemma bit01 p : bits b p 1 = 0 \/ bits b p 1 = 1.
Proof. pose proof (bits_range b p 1 ltac:(lia)). change (2 ^ 1) with 2 in *. lia. Qed.

Lemma mode_loop_1 f k : 0 <= k < 8 -> bits b k 1 = 1 -> bc7_mode_loop m (S f) data k k = Ok (k, k + 1).
Proof. intros Hk E. cbn [bc7_mode_loop]. rewrite Hread by lia. cbn [bind]. rewrite E. reflexivity. Qed.
Lemma mode_loop_0 f k : 0 <= k < 8 -> bits b k 1 = 0 ->
  bc7_mode_loop m (S f) data k k = bc7_mode_loop m f data (k + 1) (k + 1).
Proof.
  intros Hk E. cbn [bc7_mode_loop]. rewrite Hread by lia. cbn [bind]. rewrite E.
  destruct (Z.ltb_spec k 8); [|lia]. cbn [Z.eqb andb]. rewrite ua_ok by lia. reflexivity.
Qed.
Lemma mode_loop_end f : bc7_mode_loop m (S f) data 8 8 = Ok (8, 9).
Proof. cbn [bc7_mode_loop]. rewrite Hread by lia. cbn [bind]. rewrite andb_false_r. reflexivity. Qed.

Lemma mode_loop_ok : bc7_mode_loop m 9 data 0 0 = Ok (bc7_mode b, if bc7_mode b =? 8 then 9 else bc7_mode b + 1) /\
  0 <= bc7_mode b <= 8.
Proof.
  unfold bc7_mode. change (zrange 0 8) with [0; 1; 2; 3; 4; 5; 6; 7].
  Ltac mstep k := cbn [filter]; destruct (bit01 k) as [?E|?E];
    [rewrite E, mode_loop_0 by (auto; lia); clear E; change (0 =? 1) with false; cbv iota
    |rewrite E, mode_loop_1 by (auto; lia); change (1 =? 1) with true; cbv iota; split; [reflexivity|lia]].
  mstep 0. change (0 + 1) with 1. mstep 1. change (1 + 1) with 2. mstep 2. change (2 + 1) with 3.
  mstep 3. change (3 + 1) with 4. mstep 4. change (4 + 1) with 5. mstep 5. change (5 + 1) with 6.
  mstep 6. change (6 + 1) with 7. mstep 7. change (7 + 1) with 8.
  rewrite mode_loop_end. split; [reflexivity|lia].
Qed.

Lemma upd6 a0 a1 a2 a3 a4 a5 (v : Z) :
  upd [a0; a1; a2; a3; a4; a5] 0 v = Ok [v; a1; a2; a3; a4; a5] /\
  upd [a0; a1; a2; a3; a4; a5] 1 v = Ok [a0; v; a2; a3; a4; a5] /\
  upd [a0; a1; a2; a3; a4; a5] 2 v = Ok [a0; a1; v; a3; a4; a5] /\
  upd [a0; a1; a2; a3; a4; a5] 3 v = Ok [a0; a1; a2; v; a4; a5] /\
  upd [a0; a1; a2; a3; a4; a5] 4 v = Ok [a0; a1; a2; a3; v; a5] /\
  upd [a0; a1; a2; a3; a4; a5] 5 v = Ok [a0; a1; a2; a3; a4; v].
Proof. repeat split. Qed.
Lemma idx6 (a0 a1 a2 a3 a4 a5 : Z) :
  idx [a0; a1; a2; a3; a4; a5] 0 = Ok a0 /\ idx [a0; a1; a2; a3; a4; a5] 1 = Ok a1 /\
  idx [a0; a1; a2; a3; a4; a5] 2 = Ok a2 /\ idx [a0; a1; a2; a3; a4; a5] 3 = Ok a3 /\
  idx [a0; a1; a2; a3; a4; a5] 4 = Ok a4 /\ idx [a0; a1; a2; a3; a4; a5] 5 = Ok a5.
Proof. repeat split. Qed.
Ltac u6 := match goal with |- context [upd [?a0; ?a1; ?a2; ?a3; ?a4; ?a5] ?i ?v] =>
  let H := fresh in pose proof (upd6 a0 a1 a2 a3 a4 a5 v) as H;
  decompose [and] H; clear H;
  match goal with E : upd [a0; a1; a2; a3; a4; a5] i v = _ |- _ => rewrite E; cbn [bind] end;
  repeat match goal with E : upd _ _ v = _ |- _ => clear E end end.
Ltac i6 := match goal with |- context [idx [?a0; ?a1; ?a2; ?a3; ?a4; ?a5] ?i] =>
  let H := fresh in pose proof (idx6 a0 a1 a2 a3 a4 a5) as H;
  decompose [and] H; clear H;
  match goal with E : idx [a0; a1; a2; a3; a4; a5] i = _ |- _ => rewrite E; cbn [bind] end;
  repeat match goal with E : idx [a0; a1; a2; a3; a4; a5] _ = _ |- _ => clear E end end.

Ltac ltbs := repeat match goal with |- context [if ?a <? ?c then _ else _] =>
  let v := eval compute in (a <? c) in change (a <? c) with v; cbv iota end.

Lemma shl8 p n pb : 0 <= n -> 0 <= pb <= 1 -> n + pb <= 8 ->
  exists v, ushl m 16 (bits b p n) pb = Ok v /\ u8 v = bits b p n * 2 ^ pb.
Proof.
  intros. rewrite ushl_ok by lia. eexists; split; [reflexivity|].
  pose proof (bits_range b p n ltac:(lia)).
  assert (bits b p n * 2 ^ pb < 2 ^ n * 2 ^ pb) by (apply Z.mul_lt_mono_pos_r; [apply Z.pow_pos_nonneg; lia|lia]).
  rewrite <- Z.pow_add_r in * by lia.
  assert (2 ^ (n + pb) <= 2 ^ 8) by (apply Z.pow_le_mono_r; lia).
  assert (0 <= bits b p n * 2 ^ pb) by (apply Z.mul_nonneg_nonneg; [lia|apply Z.pow_nonneg; lia]).
  unfold u8. rewrite (Z.mod_small _ (2 ^ 16)) by lia. apply Z.mod_small. lia.
Qed.

Lemma channel_ok ns n pb pos : 1 <= ns <= 3 -> 0 <= n <= 8 -> 0 <= pb <= 1 -> n + pb <= 8 -> 0 <= pos ->
  pos + 2 * ns * n <= 128 ->
  bc7_read_channel m data ns n pb (repeat 0 6) pos =
  Ok (tab 6 (fun e => if e <? 2 * ns then bits b (pos + e * n) n * 2 ^ pb else 0), pos + 2 * ns * n).
Proof.
  intros Hs Hn Hp Hnp Hpos Hl. unfold bc7_read_channel. change (repeat 0 6) with [0; 0; 0; 0; 0; 0]. rewrite tab6.
  assert (ns = 1 \/ ns = 2 \/ ns = 3) as [->|[->| ->]] by lia;
  (match goal with |- _ = ?r => set (R := r) end;
  do 3 (try rewrite for_range_cons by lia;
    try (do 2 (rewrite Hread by lia; cbn [bind];
      match goal with |- context [ushl m 16 (bits b ?p n) pb] =>
         let v := fresh "v" in let E1 := fresh in let E2 := fresh in
         destruct (shl8 p n pb) as (v & E1 & E2); try lia; rewrite E1; cbn [bind]; rewrite E2; clear v E1 E2 end;
      do 2 try (rewrite ua_ok by lia; cbn [bind]);
      cbn [Z.mul Pos.mul Z.add Pos.add Pos.succ]; u6)));
  rewrite for_range_nil by lia; subst R; ltbs;
  (apply (f_equal Ok); apply f_equal2; [|lia]; repeat (apply f_equal2; [do 2 f_equal; lia|]); reflexivity)).
Qed.

Definition orp (ns sh pos : Z) (f : Z -> Z) (e : Z) : Z :=
  if e <? 2 * ns then Z.lor (f e) (bits b (pos + (if sh =? 0 then e else e / 2)) 1) else f e.

Lemma u8_bit p : u8 (bits b p 1) = bits b p 1.
Proof. destruct (bit01 p) as [-> | ->]; reflexivity. Qed.

Ltac lits := repeat match goal with |- context [?a / 2] =>
  lazymatch a with Z0 => idtac | Zpos _ => idtac end; let v := eval compute in (a / 2) in change (a / 2) with v end.

Lemma pbits_ok ns sh pos fr fg fb fa : 1 <= ns <= 3 -> 0 <= sh <= 1 -> 0 <= pos -> pos + 2 * ns <= 128 ->
  bc7_pbits m data ns 1 sh (tab 6 fr, tab 6 fg, tab 6 fb, tab 6 fa, pos) =
  Ok (tab 6 (orp ns sh pos fr), tab 6 (orp ns sh pos fg), tab 6 (orp ns sh pos fb), tab 6 (orp ns sh pos fa),
      pos + if sh =? 0 then 2 * ns else ns).
Proof.
  intros Hs Hsh Hpos Hl. unfold bc7_pbits, orp. rewrite !tab6.
  assert (ns = 1 \/ ns = 2 \/ ns = 3) as [->|[->| ->]] by lia;
  (assert (sh = 0 \/ sh = 1) as [-> | ->] by lia;
   [change (0 =? 0) with true | change (1 =? 0) with false]; cbv iota;
  match goal with |- _ = ?r => set (R := r) end;
  do 3 (try (rewrite for_range_cons by lia;
    do 2 try (rewrite Hread by lia; cbn [bind]); do 2 (rewrite ua_ok by lia; cbn [bind]);
    cbn [Z.mul Pos.mul Z.add Pos.add Pos.succ]; unfold or_at; do 8 (i6; u6)));
  rewrite for_range_nil by lia; subst R; ltbs; lits; rewrite !u8_bit;
  apply ok5; try lia; (apply list6; try reflexivity; do 2 f_equal; lia)).
Qed.

Lemma expand_loop_ok ns n f : 1 <= ns <= 3 -> 4 <= n <= 8 ->
  (forall e, 0 <= e < 2 * ns -> 0 <= f e < 2 ^ n) ->
  bc7_expand m ns n (tab 6 f) = Ok (tab 6 (fun e => if e <? 2 * ns then expand8 n (f e) else f e)).
Proof.
  intros Hs Hn Hf. unfold bc7_expand. rewrite !tab6.
  assert (ns = 1 \/ ns = 2 \/ ns = 3) as [->|[->| ->]] by lia;
  (match goal with |- _ = ?r => set (R := r) end;
  do 3 (try (rewrite for_range_cons by lia; rewrite ua_ok by lia; cbn [bind];
    cbn [Z.mul Pos.mul Z.add Pos.add Pos.succ]; unfold expand_at;
    i6; match goal with |- context [expand_quantized m (f ?e) n] =>
      rewrite (proj1 (expand_ok m n (f e) Hn (Hf e ltac:(lia)))) end; cbn [bind]; u6;
    try (rewrite ua_ok by lia; cbn [bind]);  cbn [Z.mul Pos.mul Z.add Pos.add Pos.succ];
    i6; match goal with |- context [expand_quantized m (f ?e) n] =>
      rewrite (proj1 (expand_ok m n (f e) Hn (Hf e ltac:(lia)))) end; cbn [bind]; u6));
  rewrite for_range_nil by lia; subst R; ltbs; reflexivity).
Qed.

Lemma mix_ok E s w : 0 <= s < 3 -> 0 <= w <= 64 -> is_byte (E (2 * s)) -> is_byte (E (2 * s + 1)) ->
  bc7_mix m (tab 6 E) (s * 2) (64 - w) w = Ok (lerp64 (E (2 * s)) (E (2 * s + 1)) w).
Proof.
  clear data b Hread Hpeek. intros Hs Hw H0 H1. unfold is_byte in *. unfold bc7_mix, lerp64.
  rewrite idx_ok by (rewrite zlen_tab; lia). cbn [bind]. rewrite znth_tab by lia.
  replace (s * 2) with (2 * s) by lia.
  generalize dependent (E (2 * s)). intros x Hx.
  assert (0 <= x * (64 - w) <= 255 * (64 - w)) by (split; [apply Z.mul_nonneg_nonneg|apply Z.mul_le_mono_nonneg_r]; lia).
  rewrite ua_ok by lia. cbn [bind]. rewrite ua_ok by lia. cbn [bind].
  rewrite idx_ok by (rewrite zlen_tab; lia). cbn [bind]. rewrite znth_tab by lia.
  generalize dependent (E (2 * s + 1)). intros y Hy.
  assert (0 <= y * w <= 255 * w) by (split; [apply Z.mul_nonneg_nonneg|apply Z.mul_le_mono_nonneg_r]; lia).
  rewrite ua_ok by lia. cbn [bind]. rewrite ua_ok by lia. cbn [bind]. rewrite ua_ok by lia. cbn [bind].
  rewrite shr_div by lia. change (2 ^ 6) with 64. unfold u8. f_equal. apply Z.mod_small.
  change (2 ^ 8) with 256. generalize dependent (x * (64 - w)). generalize dependent (y * w). intros. dlia.
Qed.

End Block.
