(** * Levels whose positions do not fit into an `i32` cannot be unpacked. *)
From Verif Require Import Base BaseLemmas ModelCrn ModelCrunch ProofAstcRange ProofBc6 SpecCrn SpecCrnHeader SpecCrnLevel SpecCrnFile SpecCrnTexel
  ProofCrnHeader ProofCrnGrid ProofCrnFile ProofCrnKeep ProofCrnDecode ProofOversize ProofCrnFaces.

Lemma ia_inv m x v : ia m 32 x = Ok v -> v = swrap 32 x /\ - 2 ^ 31 <= v < 2 ^ 31 /\ (m = Checked -> v = x).
Proof.
  intros H. unfold ia in H. change (32 - 1) with 31 in H.
  destruct (Z.leb_spec (- 2 ^ 31) x), (Z.ltb_spec x (2 ^ 31)); cbn [andb] in H; try (injection H as <-; rewrite swrap_small by lia; repeat split; lia).
  all: destruct m; [discriminate|]; injection H as <-; split; [reflexivity|]; split; [|discriminate];
    unfold swrap; change (32 - 1) with 31; pose proof (Z.mod_pos_bound x (2 ^ 32) ltac:(lia)); destruct (Z.ltb_spec (x mod 2 ^ 32) (2 ^ 31)); lia.
Qed.
Lemma swrap_up x : 2 ^ 31 <= x < 2 ^ 31 + 2 ^ 32 -> swrap 32 x = x - 2 ^ 32.
Proof.
  intros Hx. unfold swrap. change (32 - 1) with 31. destruct (Z.lt_ge_cases x (2 ^ 32)).
  - rewrite Z.mod_small by lia. destruct (Z.ltb_spec x (2 ^ 31)); lia.
  - assert (x mod 2 ^ 32 = x - 2 ^ 32) as -> by (symmetry; apply Z.mod_unique with 1; lia). destruct (Z.ltb_spec (x - 2 ^ 32) (2 ^ 31)); lia.
Qed.
Lemma swrap_down x : - 2 ^ 32 <= x < - 2 ^ 31 -> swrap 32 x = x + 2 ^ 32.
Proof.
  intros Hx. unfold swrap. change (32 - 1) with 31.
  assert (x mod 2 ^ 32 = x + 2 ^ 32) as -> by (symmetry; apply Z.mod_unique with (-1); lia). destruct (Z.ltb_spec (x + 2 ^ 32) (2 ^ 31)); lia.
Qed.
Lemma u64_neg v : - 2 ^ 31 <= v < 0 -> u64 v = v + 2 ^ 64.
Proof. intros H. unfold u64. symmetry. apply Z.mod_unique with (-1); lia. Qed.
Lemma u64_pos v : 0 <= v < 2 ^ 64 -> u64 v = v.
Proof. intros H. unfold u64. apply Z.mod_small; lia. Qed.

Lemma mod4 x q : (x + q * 2 ^ 32) mod 4 = x mod 4.
Proof. replace (x + q * 2 ^ 32) with (x + q * 2 ^ 30 * 4) by ring. apply Z.mod_add. lia. Qed.
Lemma swrap_mod4 x : swrap 32 x mod 4 = x mod 4.
Proof.
  unfold swrap. destruct (_ <? _).
  - rewrite (Z.mod_eq x (2 ^ 32)) by lia. replace (x - 2 ^ 32 * (x / 2 ^ 32)) with (x + - (x / 2 ^ 32) * 2 ^ 32) by ring. apply mod4.
  - rewrite (Z.mod_eq x (2 ^ 32)) by lia. replace (x - 2 ^ 32 * (x / 2 ^ 32) - 2 ^ 32) with (x + (- (x / 2 ^ 32) - 1) * 2 ^ 32) by ring. apply mod4.
Qed.
Lemma u64_mod4 x : u64 x mod 4 = x mod 4.
Proof. unfold u64. rewrite (Z.mod_eq x (2 ^ 64)) by lia. replace (x - 2 ^ 64 * (x / 2 ^ 64)) with (x + - (x / 2 ^ 64) * 2 ^ 32 * 2 ^ 32) by ring. apply mod4. Qed.

(** A step to the right or to the left that stays inside the output. *)
Lemma step_inv m p dl v L : 0 <= p < 2 ^ 31 + 2 ^ 22 -> - 32 <= dl <= 32 -> dl <> 0 -> L <= 2 ^ 63 ->
  ia m 32 (swrap 32 p + dl) = Ok v -> u64 v < L ->
  u64 v = p + dl /\ p + dl < 2 ^ 31 /\ p <= 2 ^ 31 + (if dl <? 0 then match m with Checked => -1 | Wrapping => - dl - 1 end else - 1).
Proof.
  intros Hp Hd Hn HL H Hv. apply ia_inv in H. destruct H as (-> & R & C).
  assert (0 <= swrap 32 (swrap 32 p + dl)) as P0.
  { destruct (Z.lt_ge_cases (swrap 32 (swrap 32 p + dl)) 0) as [N|N]; [|exact N]. rewrite u64_neg in Hv by lia. lia. }
  rewrite u64_pos by lia. destruct (Z.lt_ge_cases p (2 ^ 31)) as [Lp|Lp].
  - rewrite (swrap_small p) in * by lia.
    destruct (Z.lt_ge_cases (p + dl) (2 ^ 31)) as [Ln|Ln]; [|rewrite swrap_up in P0 by lia; lia].
    destruct (Z.lt_ge_cases (p + dl) 0) as [Lz|Lz]; [rewrite swrap_small in P0 by lia; lia|].
    rewrite swrap_small by lia. split; [reflexivity|]. split; [lia|]. destruct (Z.ltb_spec dl 0); [destruct m; lia|lia].
  - rewrite (swrap_up p) in * by lia.
    destruct (Z.lt_ge_cases (p - 2 ^ 32 + dl) (- 2 ^ 31)) as [Ln|Ln]; [|rewrite swrap_small in P0 by lia; lia].
    rewrite swrap_down in * by lia. split; [lia|]. split; [lia|].
    destruct (Z.ltb_spec dl 0); [|lia]. destruct m; [specialize (C eq_refl); lia|lia].
Qed.

(** ** The rows of chunks *)
Section Rows.
Context {S : Type} (P : S -> Prop) (Q : bool -> Z -> Prop) (m : build) (W H bpb pitch faces L : Z) (body : bool -> bool -> Z -> S -> res S).
Notation cx := (chunk_cols W).
Notation cy := (chunk_rows H).
Hypothesis Hkeep : forall a b d s s', P s -> body a b d s = Ok s' -> P s'.
Hypothesis Hreach : forall a b d s s', P s -> 0 <= d < 2 ^ 64 -> d mod 4 = 0 -> body a b d s = Ok s' -> d < L /\ (d <= 2 ^ 31 -> Q b d).
Hypothesis Hbpb : bpb = 8 \/ bpb = 16.
Hypothesis HW : 1 <= W.
Hypothesis HH : 1 <= H.
Hypothesis Hcx : 2 <= cx <= 2 ^ 14.
Hypothesis Hcy : 1 <= cy <= 2 ^ 14.
Hypothesis Hf : 1 <= faces < 256.
Hypothesis Hp : 0 < pitch < 2 ^ 20.
Hypothesis EP : pitch = W * bpb.
Hypothesis HL : L <= 2 ^ 63.

(** What is known once row [y] of chunks, number [n] of all rows, is done. *)
Definition row_done (n y : Z) : Prop :=
  n * (2 * pitch) < 2 ^ 31 + 2 ^ 21 -> forall x, 0 <= x < cx -> let d := n * (2 * pitch) + 2 * x * bpb in
  d <= 2 ^ 31 - (match m with Checked => 1 | Wrapping => if Z.odd y then 0 else 1 end) /\
  Q ((y =? cy - 1) && Z.odd H) d /\ (m = Checked -> Z.odd y = false -> d + 2 * bpb < 2 ^ 31).
Definition rows_done (n : Z) (s : Z * S) : Prop :=
  fst s = n * (2 * pitch) /\ P (snd s) /\ forall f y, 0 <= f -> 0 <= y < cy -> f * cy + y < n -> row_done (f * cy + y) y.

Lemma row_end n y st r :  0 <= n < 2 ^ 22 -> 0 <= y -> P st ->
  (let odd := Z.odd y in
   let* block_dst :=
     if (odd : bool) then
       let* k := ia m 32 (swrap 32 cx - 1) in
       let* k := ia m 32 (k * bpb) in
       let* k := ia m 32 (k * 2) in
       ua m 64 (n * (2 * pitch) + u64 k)
     else Ok (n * (2 * pitch)) in
   for_list (if odd then rev (zrange 0 (swrap 32 cx)) else zrange 0 (swrap 32 cx)) (fun x st =>
     let '(block_dst, st) := st in
     let* st := body ((Z.land W 1 =? 1) && (x =? swrap 32 cx - 1)) ((y =? cy - 1) && Z.odd H) block_dst st in
     let* next := ia m 32 (swrap 32 block_dst + (if odd then - bpb * 2 else bpb * 2)) in
     Ok (u64 next, st)) (block_dst, st)) = Ok r ->
  P (snd r) /\ row_done n y.
Proof.
  intros Hn Hy K E. cbv zeta in E. assert (swrap 32 cx = cx) as Ecx by (apply swrap_small; lia). rewrite Ecx in E.
  assert (0 <= n * (2 * pitch)) as Hr0 by (apply Z.mul_nonneg_nonneg; lia).
  assert (n * (2 * pitch) <= (2 ^ 22 - 1) * (2 * 2 ^ 20)) as Hr1 by (apply Z.mul_le_mono_nonneg; lia).
  assert ((n * (2 * pitch)) mod 4 = 0) as Hr4.
  { rewrite EP. destruct Hbpb; subst bpb; [replace (n * (2 * (W * 8))) with (n * W * 4 * 4) by ring|replace (n * (2 * (W * 16))) with (n * W * 8 * 4) by ring]; apply Z.mod_mul; lia. }
  set (row := n * (2 * pitch)) in *.
  set (pos := fun i => row + 2 * (if Z.odd y then cx - 1 - i else i) * bpb).
  assert ((if Z.odd y then
       let* k := ia m 32 (cx - 1) in
       let* k := ia m 32 (k * bpb) in
       let* k := ia m 32 (k * 2) in
       ua m 64 (row + u64 k)
     else Ok row) = Ok (pos 0)) as EQ.
  { unfold pos. destruct (Z.odd y); [|f_equal; lia].
    rewrite ia_ok by lia. cbn [bind]. rewrite ia_ok by (destruct Hbpb; subst bpb; lia). cbn [bind]. rewrite ia_ok by (destruct Hbpb; subst bpb; lia). cbn [bind].
    rewrite u64_pos by (destruct Hbpb; subst bpb; lia). rewrite ua_ok by (destruct Hbpb; subst bpb; lia). f_equal. lia. }
  rewrite EQ in E. cbn [bind] in E. clear EQ. rewrite (serp_list W HW), for_list_map in E.
  assert (forall i, 0 <= i < cx -> row <= pos i <= row + 2 ^ 20 /\ pos i mod 4 = 0) as PB.
  { intros i Hi. unfold pos. set (x := if Z.odd y then cx - 1 - i else i). assert (0 <= x < cx) as Hx by (unfold x; destruct (Z.odd y); lia). clearbody x.
    split; [destruct Hbpb; subst bpb; lia|]. destruct Hbpb; subst bpb.
    - replace (row + 2 * x * 8) with (row + x * 4 * 4) by ring. rewrite Z.mod_add by lia. exact Hr4.
    - replace (row + 2 * x * 16) with (row + x * 8 * 4) by ring. rewrite Z.mod_add by lia. exact Hr4. }
  set (delta := if Z.odd y then - bpb * 2 else bpb * 2) in *.
  assert (forall i, pos (i + 1) = pos i + delta) as PS by (intros i; unfold pos, delta; destruct (Z.odd y); ring).
  set (sb := (y =? cy - 1) && Z.odd H) in *.
  set (small := row < 2 ^ 31 + 2 ^ 21).
  set (gone := fun i => pos i + delta < 2 ^ 31 /\ pos i <= 2 ^ 31 + (if delta <? 0 then match m with Checked => -1 | Wrapping => - delta - 1 end else - 1)).
  assert (- 32 <= delta <= 32 /\ delta <> 0) as [D1 D2] by (unfold delta; destruct (Z.odd y), Hbpb; subst bpb; lia).
  set (inv := fun i (s : Z * S) => P (snd s) /\ (i = 0 -> fst s = pos 0) /\ (small ->
    (0 < i -> exists v, ia m 32 (swrap 32 (pos (i - 1)) + delta) = Ok v /\ fst s = u64 v) /\
    (forall j, 0 <= j < i -> pos j <= 2 ^ 31 -> Q sb (pos j)) /\ forall j, 0 <= j < i - 1 -> gone j)).
  assert (inv cx r) as (KR & _ & F).
  { refine (for_range_ok_inv inv 0 cx _ (pos 0, st) r ltac:(lia) _ _ E).
    { split; [exact K|]. split; [intros _; reflexivity|]. intros _. split; [lia|]. split; intros; lia. }
    clear E K st. intros i [d st] s' Hi (K & P0 & F) G. cbn [fst snd] in K, P0, F. step G. rename a into st1, E into EB. step G. rename a into v, E into EV. injection G as <-.
    pose proof (Hkeep _ _ _ _ _ K EB) as K1. split; [exact K1|]. split; [lia|]. cbn [fst]. intros Sm. specialize (F Sm). destruct F as (F1 & F2 & F3).
    assert (d = pos i /\ (0 < i -> gone (i - 1)) /\ (pos i <= 2 ^ 31 -> Q sb (pos i))) as (Ed & G1 & G2).
    { unfold small in Sm. destruct (Z.eq_dec i 0) as [E0|E0].
      - rewrite (P0 E0) in EB |- *. rewrite E0. split; [reflexivity|]. split; [lia|]. destruct (PB 0 ltac:(lia)) as [B1 B2].
        exact (proj2 (Hreach _ _ (pos 0) _ _ K ltac:(lia) B2 EB)).
      - destruct (F1 ltac:(lia)) as (v0 & E1 & E2). destruct (PB (i - 1) ltac:(lia)) as [B1 B2].
        assert (0 <= d < 2 ^ 64) as Rd by (rewrite E2; unfold u64; apply Z.mod_pos_bound; lia).
        assert (delta mod 4 = 0) as M0 by (unfold delta; destruct (Z.odd y), Hbpb; subst bpb; reflexivity).
        assert (d mod 4 = 0) as Md.
        { rewrite E2. destruct (ia_inv _ _ _ E1) as (-> & _). rewrite u64_mod4, swrap_mod4, Z.add_mod, swrap_mod4, B2, M0 by lia. reflexivity. }
        destruct (Hreach _ _ _ _ _ K Rd Md EB) as [RL RQ]. rewrite E2 in RL.
        destruct (step_inv m (pos (i - 1)) delta v0 L ltac:(lia) D1 D2 HL E1 RL) as (S1 & S2 & S3).
        rewrite <- PS in S1. replace (i - 1 + 1) with i in S1 by ring. rewrite <- E2 in S1. split; [exact S1|].
        split; [intros _; split; [exact S2|exact S3]|]. rewrite <- S1. exact RQ. }
    split; [|split].
    - intros _. exists v. replace (i + 1 - 1) with i by ring. rewrite <- Ed. split; [exact EV|reflexivity].
    - intros j Hj. destruct (Z.eq_dec j i) as [->|N]; [exact G2|apply F2; lia].
    - intros j Hj. destruct (Z.eq_dec j (i - 1)) as [->|N]; [apply G1; lia|apply F3; lia]. }
  split; [exact KR|]. intros Sm. fold row in Sm |- *. destruct (F Sm) as ((v & E1 & _) & F2 & F3); [lia|]. clear F E.
  assert (forall i, 0 <= i < cx -> pos i <= 2 ^ 31 - (match m with Checked => 1 | Wrapping => if Z.odd y then 0 else 1 end)) as F4.
  { intros i Hi. destruct (F3 0 ltac:(lia)) as [G1 G2]. destruct (Z.eq_dec i (cx - 1)) as [Ei|Ei].
    - destruct (F3 (i - 1) ltac:(lia)) as [G3 G4]. rewrite <- PS in G3. replace (i - 1 + 1) with i in G3 by ring. destruct m; [lia|destruct (Z.odd y); lia].
    - destruct (F3 i ltac:(lia)) as [G3 G4]. unfold delta in G3, G4. destruct (Z.odd y) eqn:O.
      + assert (- bpb * 2 <? 0 = true) as L0 by (apply Z.ltb_lt; lia). rewrite L0 in G4. destruct m; [lia|].
        assert (pos i = 2 * bpb * (n * W + (cx - 1 - i))) as EM by (unfold pos, row; rewrite EP; ring).
        rewrite EM in *. set (z := n * W + (cx - 1 - i)) in *. clearbody z. destruct Hbpb; subst bpb; lia.
      + assert (bpb * 2 <? 0 = false) as L0 by (apply Z.ltb_ge; lia). rewrite L0 in G4. destruct m; lia. }
  intros x Hx. cbv zeta.
  assert (exists i, 0 <= i < cx /\ row + 2 * x * bpb = pos i) as (i & Hi & ->).
  { exists (if Z.odd y then cx - 1 - x else x). unfold pos. destruct (Z.odd y); split; try lia. }
  pose proof (F4 i Hi) as G. split; [exact G|]. split; [apply F2; [exact Hi|destruct m; [lia|destruct (Z.odd y); lia]]|].
  intros M O. subst m. destruct (Z.eq_dec i (cx - 1)) as [->|N].
  - destruct (ia_inv _ _ _ E1) as (_ & R & C). specialize (C eq_refl). rewrite swrap_small in C by (pose proof (PB (cx - 1) Hi); lia).
    unfold delta in C. rewrite O in C. lia.
  - destruct (F3 i ltac:(lia)) as [G3 _]. unfold delta in G3. rewrite O in G3. lia.
Qed.

Lemma loops_end st st' : P st -> chunk_loops m bpb pitch W H cx cy faces body st = Ok st' ->
  forall f y, 0 <= f < faces -> 0 <= y < cy -> row_done (f * cy + y) y.
Proof.
  intros H0 E. unfold chunk_loops in E. step E. clear E. destruct a as [r a].
  assert (rows_done (faces * cy) (r, a)) as (_ & _ & R).
  { refine (for_range_ok_inv (fun f x => rows_done (f * cy) x) 0 faces _ (0, st) (r, a) ltac:(lia) _ _ E0).
    { split; cbn [fst snd]; [lia|]. split; [exact H0|]. intros f y F1 F2 F3. assert (0 <= f * cy) by (apply Z.mul_nonneg_nonneg; lia). lia. }
    clear E0 r a H0 st. intros f s s' Hfr Hs E.
    replace ((f + 1) * cy) with (f * cy + cy) by lia.
    refine (for_range_ok_inv (fun y x => rows_done (f * cy + y) x) 0 cy _ s s' ltac:(lia) _ _ E).
    { rewrite Z.add_0_r. exact Hs. }
    clear E s s' Hs. intros y [row s] s' Hy (Er & HP & R) E. cbn [fst snd] in Er, HP. cbv zeta in E. rewrite !land_1_odd in E. subst row.
    assert (0 <= f * cy + y < 2 ^ 22) as Hn.
    { split; [nia|]. assert (f * cy <= 254 * 2 ^ 14) by (apply Z.mul_le_mono_nonneg; lia). lia. }
    assert (0 <= (f * cy + y) * (2 * pitch) <= (2 ^ 22 - 1) * (2 * 2 ^ 20)) as Hr.
    { split; [apply Z.mul_nonneg_nonneg; lia|apply Z.mul_le_mono_nonneg; lia]. }
    step E. rename E0 into ED. step E. rename E0 into EL. destruct a0 as [d1 s1].
    rewrite ua_ok in E by lia. cbn [bind] in E. rewrite ua_ok in E by lia. cbn [bind] in E. assert (s' = ((f * cy + y) * (2 * pitch) + pitch * 2, s1)) as -> by congruence. clear E.
    destruct (row_end (f * cy + y) y s (d1, s1) Hn ltac:(lia) HP) as [K1 RD].
    { cbv zeta. rewrite ED. cbn [bind]. rewrite land_1_odd. exact EL. }
    split; cbn [fst snd]; [ring|]. split; [exact K1|].
    intros f' y' Hf' Hy' Hn'. destruct (Z.eq_dec (f' * cy + y') (f * cy + y)) as [EQ|NE]; [|apply R; lia].
    assert (y' = y) as ->.
    { rewrite <- (Z.mod_small y' cy), <- (Z.mod_small y cy) by lia. rewrite <- (Z_mod_plus_full y' f' cy), <- (Z_mod_plus_full y f cy). f_equal. lia. }
    rewrite EQ. exact RD. }
  intros f y F1 F2. apply R; try lia. assert ((f + 1) * cy <= faces * cy) by (apply Z.mul_le_mono_nonneg_r; lia). lia.
Qed.

Lemma last_row : (forall f y, 0 <= f < faces -> 0 <= y < cy -> row_done (f * cy + y) y) ->
  (faces * cy - 1) * (2 * pitch) < 2 ^ 31 + 2 ^ 21 /\ row_done (faces * cy - 1) (cy - 1).
Proof.
  intros R. assert (1 <= faces * cy) as N1 by nia.
  split; [|specialize (R (faces - 1) (cy - 1) ltac:(lia) ltac:(lia)); replace ((faces - 1) * cy + (cy - 1)) with (faces * cy - 1) in R by ring; exact R].
  destruct (Z.lt_ge_cases ((faces * cy - 1) * (2 * pitch)) (2 ^ 31 + 2 ^ 21)) as [L0|L0]; [exact L0|exfalso].
  pose proof (Z.div_mod (2 ^ 31) (2 * pitch) ltac:(lia)) as DM. pose proof (Z.mod_pos_bound (2 ^ 31) (2 * pitch) ltac:(lia)) as MB.
  set (q := 2 ^ 31 / (2 * pitch)) in *. set (k := 2 ^ 31 mod (2 * pitch)) in *.
  assert (0 <= q) as Q0 by (apply Z.div_pos; lia).
  assert (q + 1 <= faces * cy - 1) as QN by nia.
  pose proof (Z.div_mod (q + 1) cy ltac:(lia)) as D1. pose proof (Z.mod_pos_bound (q + 1) cy ltac:(lia)) as M1.
  assert (0 <= (q + 1) / cy) as F0 by (apply Z.div_pos; lia).
  assert ((q + 1) / cy < faces) as F1 by (apply Z.div_lt_upper_bound; lia).
  specialize (R ((q + 1) / cy) ((q + 1) mod cy) ltac:(lia) M1). replace ((q + 1) / cy * cy + (q + 1) mod cy) with (q + 1) in R by lia.
  unfold row_done in R. replace ((q + 1) * (2 * pitch)) with (2 * pitch * q + 2 * pitch) in R by ring.
  destruct (R ltac:(lia) 0 ltac:(lia)) as [B _]. destruct m; [lia|destruct (Z.odd _); lia].
Qed.
End Rows.

(** ** The blocks of a chunk *)
Lemma chunk_blocks_end {S} (P : S -> Prop) m L bpb pitch d a b blk st st' :
  P st -> 0 <= d <= 2 ^ 31 -> d mod 4 = 0 -> bpb = 8 \/ bpb = 16 -> 0 < pitch < 2 ^ 20 -> L <= 2 ^ 63 ->
  (forall v k pd s s', P s -> blk v k pd s = Ok s' -> P s') ->
  (forall k pd s s', P s -> 0 <= pd < 2 ^ 62 -> blk true k pd s = Ok s' -> pd * 4 < L) ->
  chunk_blocks m bpb pitch d a b blk st = Ok st' ->
  match m with
  | Checked => (d + 2 * bpb < 2 ^ 31 -> d + pitch < 2 ^ 31) /\ (d + 2 * bpb < 2 ^ 31 -> pitch mod 4 = 0 -> d + pitch + 2 * bpb < 2 ^ 31 -> d + 2 * pitch < 2 ^ 31)
  | Wrapping => b = false -> d + pitch < 2 ^ 31
  end.
Proof.
  intros H0 Hd Hd4 Hb Hp HL Hk Hr E. unfold chunk_blocks in E. destruct (word_pos d ltac:(lia) Hd4) as [Hpd Epd].
  set (row := fun (by_ : Z) (st : Z * S) => for_range 0 2 (fun bx st =>
          let '(pd, st) := st in
          let visible := negb ((negb (bx =? 0) && a) || (negb (by_ =? 0) && b)) in
          let* st := blk visible (bx + by_ * 2) pd st in
          Ok (pd + Z.shiftr bpb 2, st)) st) in *.
  assert (forall by_ pd s pd' s', P s -> row by_ (pd, s) = Ok (pd', s') -> P s' /\ pd' * 4 = pd * 4 + 2 * bpb /\
    (0 <= pd < 2 ^ 62 -> by_ = 0 \/ b = false -> pd * 4 < L)) as RW.
  { intros by_ pd s pd' s' K R.
    assert (P (snd (pd', s')) /\ fst (pd', s') = pd + 2 * Z.shiftr bpb 2 /\ (0 < 2 -> 0 <= pd < 2 ^ 62 -> by_ = 0 \/ b = false -> pd * 4 < L)) as (K1 & E1 & E2).
    { refine (for_range_ok_inv (fun bx (x : Z * S) => P (snd x) /\ fst x = pd + bx * Z.shiftr bpb 2 /\ (0 < bx -> 0 <= pd < 2 ^ 62 -> by_ = 0 \/ b = false -> pd * 4 < L)) 0 2 _ (pd, s) (pd', s') ltac:(lia) _ _ R).
      { cbn [fst snd]. split; [exact K|]. split; [lia|intros; lia]. }
      clear R. intros bx [p1 s1] s2 Hbx (K1 & E1 & E2) G. cbn [fst snd] in K1, E1. cbv zeta in G. step G. injection G as <-. cbn [fst snd].
      split; [eapply Hk; eauto|]. split; [lia|]. intros _ Rp V. destruct (Z.eq_dec bx 0) as [->|N]; [|exact (E2 ltac:(lia) Rp V)].
      assert (negb ((negb (0 =? 0) && a) || (negb (by_ =? 0) && b)) = true) as EV.
      { destruct V as [-> | ->]; [reflexivity|]. rewrite andb_false_r. reflexivity. }
      rewrite EV in E0. rewrite E1, Z.mul_0_l, Z.add_0_r in E0. exact (Hr _ pd _ _ K1 Rp E0). }
    cbn [fst snd] in *. split; [exact K1|]. split; [|exact (E2 ltac:(lia))]. rewrite E1. destruct Hb; subst bpb; [change (Z.shiftr 8 2) with 2|change (Z.shiftr 16 2) with 4]; lia. }
  step E. clear E. rewrite for_range_cons in E0 by lia. step E0. step E. fold row in E1. destruct a2 as [pd1 s1].
  destruct (RW 0 _ _ _ _ H0 E1) as (K1 & P1 & _).
  step E. step E. injection E as <-. rename E2 into O1, E3 into N1.
  rewrite (swrap_small pitch) in O1 by lia. rewrite ia_ok in O1 by (destruct Hb; subst bpb; lia). injection O1 as <-.
  rewrite shl_mul in N1 by lia. change (2 ^ 2) with 4 in N1. rewrite P1, Epd in N1. rewrite u64_pos in N1 by (destruct Hb; subst bpb; lia).
  change (0 + 1) with 1 in E0. rewrite for_range_cons in E0 by lia. step E0. clear E0. step E. match type of E0 with _ = Ok ?z => destruct z as [pd2 s2] end.
  destruct (RW 1 _ _ _ _ K1 E0) as (K2 & P2 & V2). step E. clear E. rename E2 into N2.
  destruct (ia_inv _ _ _ N1) as (-> & R1 & C1). destruct m.
  - specialize (C1 eq_refl). rewrite C1 in *. clear V2.
    assert (d + 2 * bpb < 2 ^ 31 -> d + pitch < 2 ^ 31) as G1 by (intros L1; rewrite (swrap_small (d + 2 * bpb)) in R1 by (destruct Hb; subst bpb; lia); lia).
    split; [exact G1|]. intros L1 Hp4 L2. specialize (G1 L1).
    rewrite (swrap_small (d + 2 * bpb)) in P2 by (destruct Hb; subst bpb; lia).
    replace (d + 2 * bpb + (- bpb * 2 + pitch)) with (d + pitch) in P2 by ring. rewrite u64_pos in P2 by lia.
    assert ((d + pitch) mod 4 = 0) as M4 by (rewrite Z.add_mod, Hd4, Hp4 by lia; reflexivity).
    destruct (word_pos (d + pitch) ltac:(lia) M4) as [_ EW]. rewrite EW in P2.
    rewrite shl_mul in N2 by lia. change (2 ^ 2) with 4 in N2. rewrite P2 in N2. rewrite u64_pos in N2 by (destruct Hb; subst bpb; lia).
    rewrite swrap_small in N2 by (destruct Hb; subst bpb; lia). destruct (ia_inv _ _ _ N2) as (_ & R2 & C2). specialize (C2 eq_refl). lia.
  - intros Eb. set (v := swrap 32 (swrap 32 (d + 2 * bpb) + (- bpb * 2 + pitch))) in *.
    assert (0 <= Z.shiftr (u64 v) 2 < 2 ^ 62) as RV.
    { rewrite shr_div by lia. change (2 ^ 2) with 4. assert (0 <= u64 v < 2 ^ 64) by (unfold u64; apply Z.mod_pos_bound; lia).
      split; [apply Z.div_pos; lia|apply Z.div_lt_upper_bound; lia]. }
    specialize (V2 RV (or_intror Eb)).
    destruct (Z.lt_ge_cases (d + pitch) (2 ^ 31)) as [G|G]; [exact G|exfalso].
    assert (v < 0) as NV.
    { unfold v. destruct (Z.lt_ge_cases (d + 2 * bpb) (2 ^ 31)) as [L1|L1].
      - rewrite (swrap_small (d + 2 * bpb)) by (destruct Hb; subst bpb; lia). rewrite swrap_up by (destruct Hb; subst bpb; lia). lia.
      - rewrite (swrap_up (d + 2 * bpb)) by (destruct Hb; subst bpb; lia). rewrite swrap_small by (destruct Hb; subst bpb; lia). lia. }
    rewrite u64_neg in V2 by lia. rewrite shr_div in V2 by lia. change (2 ^ 2) with 4 in V2.
    pose proof (Z.div_mod (v + 2 ^ 64) 4 ltac:(lia)). pose proof (Z.mod_pos_bound (v + 2 ^ 64) 4 ltac:(lia)). lia.
Qed.

(** What the success of a chunk tells about its position. *)
Definition blocks_fit (m : build) (bpb pitch : Z) (b : bool) (d : Z) : Prop :=
  match m with
  | Checked => (d + 2 * bpb < 2 ^ 31 -> d + pitch < 2 ^ 31) /\ (d + 2 * bpb < 2 ^ 31 -> pitch mod 4 = 0 -> d + pitch + 2 * bpb < 2 ^ 31 -> d + 2 * pitch < 2 ^ 31)
  | Wrapping => b = false -> d + pitch < 2 ^ 31
  end.

Section Bodies.
Context (m : build) (u : unpacker) (L pitch : Z).
Hypothesis Hp : 0 < pitch < 2 ^ 20.
Hypothesis HL : L <= 2 ^ 63.

Lemma dxt5_chunk_end a b d s s' : keeps L (snd s) -> 0 <= d < 2 ^ 64 -> d mod 4 = 0 ->
  dxt5_chunk m u pitch a b d s = Ok s' -> d < L /\ (d <= 2 ^ 31 -> blocks_fit m 16 pitch b d).
Proof.
  intros K Hd Hd4 H. split; [exact (dxt5_chunk_reach m u L pitch a b d s s' K Hd Hd4 H)|]. intros Hs.
  destruct s as [[[[[[bits x1] x2] x3] x4] cd] dst]. cbn [snd] in K. unfold dxt5_chunk in H.
  step H. destruct a0 as [[e bits1] cd1]. step H. step H. step H. destruct a2 as [[eps pe1] cd2]. step H. destruct a2 as [[eps2 pe2] cd3]. step H. clear H.
  eapply (chunk_blocks_end (fun x : Z * Z * codec * list Z => keeps L (snd x)) m L); [..|exact E4]; [exact K|lia|exact Hd4|auto|exact Hp|exact HL| |].
  - intros. eapply dxt5_block_keep; eauto.
  - intros. eapply dxt5_block_reach; eauto.
Qed.
Lemma dxn_chunk_end a b d s s' : keeps L (snd s) -> 0 <= d < 2 ^ 64 -> d mod 4 = 0 ->
  dxn_chunk m u pitch a b d s = Ok s' -> d < L /\ (d <= 2 ^ 31 -> blocks_fit m 16 pitch b d).
Proof.
  intros K Hd Hd4 H. split; [exact (dxn_chunk_reach m u L pitch a b d s s' K Hd Hd4 H)|]. intros Hs.
  destruct s as [[[[[[bits x1] x2] x3] x4] cd] dst]. cbn [snd] in K. unfold dxn_chunk in H.
  step H. destruct a0 as [[e bits1] cd1]. step H. step H. step H. destruct a2 as [[eps pe1] cd2]. step H. destruct a2 as [[eps2 pe2] cd3]. step H. clear H.
  eapply (chunk_blocks_end (fun x : Z * Z * codec * list Z => keeps L (snd x)) m L); [..|exact E4]; [exact K|lia|exact Hd4|auto|exact Hp|exact HL| |].
  - intros. eapply dxn_block_keep; eauto.
  - intros. eapply dxn_block_reach; eauto.
Qed.
Lemma dxt5a_chunk_end a b d s s' : keeps L (snd s) -> 0 <= d < 2 ^ 64 -> d mod 4 = 0 ->
  dxt5a_chunk m u pitch a b d s = Ok s' -> d < L /\ (d <= 2 ^ 31 -> blocks_fit m 8 pitch b d).
Proof.
  intros K Hd Hd4 H. split; [exact (dxt5a_chunk_reach m u L pitch a b d s s' K Hd Hd4 H)|]. intros Hs.
  destruct s as [[[[bits x1] x2] cd] dst]. cbn [snd] in K. unfold dxt5a_chunk in H.
  step H. destruct a0 as [[e bits1] cd1]. step H. step H. step H. destruct a2 as [[eps pe1] cd2]. step H. clear H.
  eapply (chunk_blocks_end (fun x : Z * codec * list Z => keeps L (snd x)) m L); [..|exact E3]; [exact K|lia|exact Hd4|auto|exact Hp|exact HL| |].
  - intros. eapply dxt5a_block_keep; eauto.
  - intros. eapply dxt5a_block_reach; eauto.
Qed.
End Bodies.

(** ** The last row *)
Lemma chunk_bounds W : 1 <= W -> 1 <= chunk_cols W /\ W <= 2 * chunk_cols W <= W + 1.
Proof. intros HW. unfold chunk_cols. pose proof (Z.div_mod (W + 1) 2 ltac:(lia)). pose proof (Z.mod_pos_bound (W + 1) 2 ltac:(lia)). lia. Qed.

Section Fits.
Context (m : build) (W H faces bpb : Z).
Hypothesis HW : 4 <= W.
Hypothesis HH : 1 <= H.
Hypothesis Hb : bpb = 8 \/ bpb = 16.

Lemma loops_fit Q : (faces * chunk_rows H - 1) * (2 * (W * bpb)) < 2 ^ 31 + 2 ^ 21 ->
  row_done Q m W H bpb (W * bpb) (faces * chunk_rows H - 1) (chunk_rows H - 1) -> last_chunk W H faces bpb + loop_reach m H bpb < 2 ^ 31.
Proof.
  intros Sm R. destruct (chunk_bounds W ltac:(lia)) as [C1 C2]. destruct (R Sm (chunk_cols W - 1) ltac:(lia)) as (A & _ & C).
  replace ((faces * chunk_rows H - 1) * (2 * (W * bpb))) with ((faces * (2 * chunk_rows H) - 2) * (W * bpb)) in A, C by ring.
  change ((faces * (2 * chunk_rows H) - 2) * (W * bpb) + 2 * (chunk_cols W - 1) * bpb) with (last_chunk W H faces bpb) in A, C.
  assert (Z.odd (chunk_rows H - 1) = negb (Z.odd (chunk_rows H))) as EO by (rewrite Z.odd_sub; destruct (Z.odd (chunk_rows H)); reflexivity).
  rewrite EO in A, C. unfold loop_reach. destruct m, (Z.odd (chunk_rows H)); cbn [negb] in *; try lia. specialize (C eq_refl eq_refl). lia.
Qed.

Lemma blocks_fit_end : (faces * chunk_rows H - 1) * (2 * (W * bpb)) < 2 ^ 31 + 2 ^ 21 ->
  row_done (blocks_fit m bpb (W * bpb)) m W H bpb (W * bpb) (faces * chunk_rows H - 1) (chunk_rows H - 1) -> last_chunk W H faces bpb + block_reach m W H bpb < 2 ^ 31.
Proof.
  intros Sm R. pose proof (loops_fit _ Sm R) as LF. destruct (chunk_bounds W ltac:(lia)) as [C1 C2].
  destruct (R Sm (chunk_cols W - 1) ltac:(lia)) as (A & Q1 & _). destruct (R Sm (chunk_cols W - 2) ltac:(lia)) as (_ & Q2 & _). clear R.
  replace ((faces * chunk_rows H - 1) * (2 * (W * bpb))) with ((faces * (2 * chunk_rows H) - 2) * (W * bpb)) in * by ring.
  replace ((faces * (2 * chunk_rows H) - 2) * (W * bpb) + 2 * (chunk_cols W - 2) * bpb) with (last_chunk W H faces bpb - 2 * bpb) in Q2 by (unfold last_chunk; ring).
  change ((faces * (2 * chunk_rows H) - 2) * (W * bpb) + 2 * (chunk_cols W - 1) * bpb) with (last_chunk W H faces bpb) in A, Q1.
  set (l := last_chunk W H faces bpb) in *. rewrite Z.eqb_refl in Q1, Q2. cbn [andb] in Q1, Q2. unfold block_reach. destruct m.
  - assert (4 * bpb <= W * bpb) as WB by (apply Z.mul_le_mono_nonneg_r; lia).
    assert ((W * bpb) mod 4 = 0) as M4.
    { destruct Hb; subst bpb; [replace (W * 8) with (W * 2 * 4) by ring|replace (W * 16) with (W * 4 * 4) by ring]; apply Z.mod_mul; lia. }
    destruct Q1 as [Q1 Q1']. destruct Q2 as [Q2 Q2']. 
    destruct (Z.lt_ge_cases (l + 2 * bpb) (2 ^ 31)) as [L1|L1].
    + specialize (Q1 L1). specialize (Q1' L1 M4).
      destruct (Z.lt_ge_cases (l + W * bpb + 2 * bpb) (2 ^ 31)) as [L2|L2]; [specialize (Q1' L2); lia|].
      specialize (Q2' ltac:(lia) M4 ltac:(lia)). lia.
    + specialize (Q2 ltac:(lia)). lia.
  - destruct (Z.odd H) eqn:O; [exact LF|]. exact (Q1 eq_refl).
Qed.
End Fits.

(** Narrow levels are far from the limit. *)
Lemma narrow_end m f W H faces : 1 <= W <= 3 -> 1 <= H <= 2 ^ 14 -> 1 <= faces < 256 -> level_end m f W H faces < 2 ^ 31.
Proof.
  intros HW HH HF. unfold level_end. assert (block_size_of f = 8 \/ block_size_of f = 16) as Hb by (unfold block_size_of; destruct (_ || _); auto).
  set (B := block_size_of f) in *. clearbody B. destruct (chunk_bounds W ltac:(lia)) as [X1 X2]. destruct (chunk_bounds H ltac:(lia)) as [Y1 Y2].
  change (chunk_cols H) with (chunk_rows H) in Y1, Y2.
  assert (last_chunk W H faces B <= 255 * 16385 * 48 + 64) as LC.
  { unfold last_chunk. assert (0 < faces * (2 * chunk_rows H) <= 255 * 16385) as [N1 N2] by (split; [apply Z.mul_pos_pos; lia|apply Z.mul_le_mono_nonneg; lia]).
    assert (faces * (2 * chunk_rows H) = faces * (2 * chunk_rows H)) as _ by reflexivity.
    assert (2 <= faces * (2 * chunk_rows H)) by (change 2 with (1 * 2) at 1; apply Z.mul_le_mono_nonneg; lia).
    assert ((faces * (2 * chunk_rows H) - 2) * (W * B) <= 255 * 16385 * 48) by (apply Z.mul_le_mono_nonneg; lia). lia. }
  assert (loop_reach m H B <= 32) as LR by (unfold loop_reach; destruct m, (Z.odd (chunk_rows H)); lia).
  assert (block_reach m W H B <= 96) as BR by (unfold block_reach; destruct m; [|destruct (Z.odd H)]; lia).
  destruct (f =? 0); lia.
Qed.

Lemma unpack_level_2_end m u src size n pitch level W H out : 
  Z.shiftr (Z.max (Z.shiftr (h_width (u_header u)) level) 1 + 3) 2 = W -> Z.shiftr (Z.max (Z.shiftr (h_height (u_header u)) level) 1 + 3) 2 = H ->
  1 <= W <= 2 ^ 14 -> 1 <= H <= 2 ^ 14 -> 1 <= h_faces (u_header u) < 256 ->
  pitch = W * block_size_of (h_format (u_header u)) -> 0 <= n <= pitch * H ->
  2 ^ 31 <= level_end m (h_format (u_header u)) W H (h_faces (u_header u)) ->
  unpack_level_2 m u src size n pitch level <> Ok out.
Proof.
  intros EW EH HW HH HF Ep Hn Big G. unfold unpack_level_2 in G. rewrite EW, EH in G.
  set (F := h_faces (u_header u)) in *. set (f := h_format (u_header u)) in *.
  assert (4 <= W) as W4. { destruct (Z.lt_ge_cases W 4); [|lia]. pose proof (narrow_end m f W H F ltac:(lia) HH HF). lia. }
  unfold level_end in Big.
  assert (block_size_of f = 8 \/ block_size_of f = 16) as Hb by (unfold block_size_of; destruct (_ || _); auto).
  assert (0 < pitch < 2 ^ 20) as Hp by lia.
  destruct (Z.eqb_spec pitch 0); [lia|]. step G. assert (a = pitch) as ->.
  { destruct (_ || _) in E; congruence. }
  clear E. step G. clear E. destruct (n <? a); [discriminate|]. step G. clear E.
  destruct (chunk_bounds W ltac:(lia)) as [X1 X2]. destruct (chunk_bounds H ltac:(lia)) as [Y1 Y2]. change (chunk_cols H) with (chunk_rows H) in Y1, Y2.
  assert (Z.shiftr (W + 1) 1 = chunk_cols W) as Ex by (rewrite shr_div by lia; reflexivity).
  assert (Z.shiftr (H + 1) 1 = chunk_rows H) as Ey by (rewrite shr_div by lia; reflexivity).
  rewrite Ex, Ey in G. clear Ex Ey.
  assert (0 <= n * F) as Hn0 by (apply Z.mul_nonneg_nonneg; lia).
  assert (n * F <= 2 ^ 63) as HL.
  { assert (pitch * H <= 2 ^ 20 * 2 ^ 14) by (apply Z.mul_le_mono_nonneg; lia). assert (n * F <= 2 ^ 34 * 256) by (apply Z.mul_le_mono_nonneg; lia). lia. }
  pose proof (zeros_keep _ Hn0) as K. set (L := n * F) in *. clearbody L.
  destruct (Z.eqb_spec f FmtDxt1) as [E0|E0].
  - rewrite E0 in Ep, Big. change (FmtDxt1 =? 0) with true in Big. change (block_size_of FmtDxt1) with 8 in *. cbv match in Big.
    unfold unpack_dxt1 in G. step G. clear G.
    pose proof (loops_end (fun s : dxt1_state => keeps L (snd s)) (fun _ _ => True) m W H 8 pitch F L (dxt1_chunk m u pitch)
      ltac:(cbv beta; intros; eapply dxt1_chunk_keep; eauto) ltac:(cbv beta; intros; split; [eapply dxt1_chunk_reach; eauto|auto]) ltac:(auto) ltac:(lia) ltac:(lia) ltac:(lia) HF Hp Ep HL) as R. specialize (fun st => R st a1). pose proof (fun Ks => R _ Ks E) as R'. specialize (R' K). clear R. rename R' into R.
    apply (last_row (fun _ _ => True) m W H 8 pitch F) in R; try lia; auto.
    destruct R as [R1 R2]. rewrite Ep in R1, R2. pose proof (loops_fit m W H F 8 W4 _ R1 R2). lia.
  - assert (f =? 0 = false) as Z0 by (apply Z.eqb_neq; exact E0). rewrite Z0 in Big.
    match type of G with (if ?b then _ else _) = Ok _ => destruct b eqn:B5 end; [|destruct (Z.eqb_spec f FmtDxt5a) as [E1|E1]; [|match type of G with (if ?b then _ else _) = Ok _ => destruct b eqn:BN end; [|discriminate]]].
    + assert (block_size_of f = 16) as Es.
      { repeat (apply orb_true_iff in B5; destruct B5 as [B5|B5]); apply Z.eqb_eq in B5; rewrite B5; reflexivity. }
      rewrite Es in *. unfold unpack_dxt5 in G. step G. clear G.
      pose proof (loops_end (fun s : dxt5_state => keeps L (snd s)) (blocks_fit m 16 pitch) m W H 16 pitch F L (dxt5_chunk m u pitch)
        ltac:(cbv beta; intros; eapply dxt5_chunk_keep; eauto) ltac:(cbv beta; intros; eapply dxt5_chunk_end; eauto) ltac:(auto) ltac:(lia) ltac:(lia) ltac:(lia) HF Hp Ep HL) as R. specialize (fun st => R st a1). pose proof (fun Ks => R _ Ks E) as R'. specialize (R' K). clear R. rename R' into R.
      apply (last_row (blocks_fit m 16 pitch) m W H 16 pitch F) in R; try lia; auto.
      destruct R as [R1 R2]. rewrite Ep in R1, R2. pose proof (blocks_fit_end m W H F 16 W4 ltac:(auto) R1 R2). lia.
    + rewrite E1 in Ep, Big. change (block_size_of FmtDxt5a) with 8 in *.
      unfold unpack_dxt5a in G. step G. clear G.
      pose proof (loops_end (fun s : dxt1_state => keeps L (snd s)) (blocks_fit m 8 pitch) m W H 8 pitch F L (dxt5a_chunk m u pitch)
        ltac:(cbv beta; intros; eapply dxt5a_chunk_keep; eauto) ltac:(cbv beta; intros; eapply dxt5a_chunk_end; eauto) ltac:(auto) ltac:(lia) ltac:(lia) ltac:(lia) HF Hp Ep HL) as R. specialize (fun st => R st a1). pose proof (fun Ks => R _ Ks E) as R'. specialize (R' K). clear R. rename R' into R.
      apply (last_row (blocks_fit m 8 pitch) m W H 8 pitch F) in R; try lia; auto.
      destruct R as [R1 R2]. rewrite Ep in R1, R2. pose proof (blocks_fit_end m W H F 8 W4 ltac:(auto) R1 R2). lia.
    + assert (block_size_of f = 16) as Es.
      { repeat (apply orb_true_iff in BN; destruct BN as [BN|BN]); apply Z.eqb_eq in BN; rewrite BN; reflexivity. }
      rewrite Es in *. unfold unpack_dxn in G. step G. clear G.
      pose proof (loops_end (fun s : dxt5_state => keeps L (snd s)) (blocks_fit m 16 pitch) m W H 16 pitch F L (dxn_chunk m u pitch)
        ltac:(cbv beta; intros; eapply dxn_chunk_keep; eauto) ltac:(cbv beta; intros; eapply dxn_chunk_end; eauto) ltac:(auto) ltac:(lia) ltac:(lia) ltac:(lia) HF Hp Ep HL) as R. specialize (fun st => R st a1). pose proof (fun Ks => R _ Ks E) as R'. specialize (R' K). clear R. rename R' into R.
      apply (last_row (blocks_fit m 16 pitch) m W H 16 pitch F) in R; try lia; auto.
      destruct R as [R1 R2]. rewrite Ep in R1, R2. pose proof (blocks_fit_end m W H F 16 W4 ltac:(auto) R1 R2). lia.
Qed.

Lemma size_raw f raw tex : crunch_texels f = Some (raw, tex) -> raw = block_size_of f.
Proof.
  intros T. unfold crunch_texels in T. unfold block_size_of. destruct (Z.eqb_spec f 0) as [->|]; [cbn [orb]; congruence|].
  destruct ((2 <=? f) && (f <=? 6)) eqn:K; [destruct (Z.eqb_spec f 9); [lia|cbn [orb]; congruence]|].
  destruct (Z.eqb_spec f 7) as [->|]; [cbn in T |- *; congruence|]. destruct (Z.eqb_spec f 8) as [->|]; [cbn in T |- *; congruence|]. cbn [orb] in T |- *.
  destruct (f =? 9); congruence.
Qed.

Lemma crunch_end_never m d level r : bytes d -> 0 <= level -> 1 <= number d 17 1 ->
  2 ^ 31 <= level_end m (number d 18 1) (level_cols (number d 12 2) level) (level_cols (number d 14 2) level) (number d 17 1) ->
  crunch_unpack_level m d (zlen d) level <> Ok r.
Proof.
  intros Hb Hl HF Big H. destruct r as [fr dxt]. pose proof H as H'. destruct (unpack_facts m d level fr dxt Hb Hl H') as (-> & _ & raw & tex & T & _). clear H'.
  unfold crunch_unpack_level in H. step H. apply or_err_inv in E. destruct (info_inv d a Hb E) as (-> & L1 & L2 & WF & F15).
  step H. pose proof (begin_header m d a Hb E0) as EH. cbn [i_width i_height i_format info_at] in H.
  pose proof (number_range d 12 2 Hb ltac:(lia)) as Nw. pose proof (number_range d 14 2 Hb ltac:(lia)) as Nh. pose proof (number_range d 17 1 Hb ltac:(lia)) as Nf.
  destruct (level_cols_eq (number d 12 2) level ltac:(lia) ltac:(lia)) as [E1 HW]. destruct (level_cols_eq (number d 14 2) level ltac:(lia) ltac:(lia)) as [E2 HH].
  pose proof (level_cols_le (number d 12 2) level ltac:(lia) Hl) as HW2. pose proof (level_cols_le (number d 14 2) level ltac:(lia) Hl) as HH2.
  rewrite (Z.max_comm 1 (Z.shiftr (number d 12 2) level)), (Z.max_comm 1 (Z.shiftr (number d 14 2) level)), E1, E2 in H.
  rewrite !(Z.max_r 1) in H by lia. set (W := level_cols (number d 12 2) level) in *. set (H0 := level_cols (number d 14 2) level) in *.
  step H. step H. step H. step H. injection H as _.
  unfold crnd_unpack_level in E6. destruct ((a2 <? 8) || (CRNMAX_LEVELS <=? level)); [discriminate|]. step E6. destruct a4 as [src sz].
  pose proof (block_size _ _ _ _ E3 T) as Er. subst a0. pose proof (size_raw _ _ _ T) as Es.
  assert (raw = 8 \/ raw = 16) as Hr by (rewrite Es; unfold block_size_of; destruct (_ || _); auto).
  rewrite ua_ok in E4 by (destruct Hr; subst raw; lia). injection E4 as <-.
  apply ua_le in E5; [|destruct Hr; subst raw; nia|lia].
  eapply (unpack_level_2_end m a src sz a2 (W * raw) level W H0); [..|exact E6]; rewrite ?EH; cbn [h_width h_height h_faces h_format header_at]; auto; try lia.
Qed.
