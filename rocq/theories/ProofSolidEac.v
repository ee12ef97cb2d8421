(** * Proofs about pictures of one red in EAC R11. *)
From Verif Require Import Base BaseLemmas BitLemmas ModelColor ModelEtc SpecImage SpecBc SpecEtc SpecCut ProofCut SpecEncode ProofEncode SpecContent ProofContent SpecTranspose ProofTranspose ProofTransposeEtc SpecContentEac ProofContentEac.

(** The lower two bytes of a block, and two more bits, determine the tied texels. *)
Definition tied_value (sgn : bool) (N k : Z) : Z := eac_shown sgn (N mod 256) (N / 4096) (N / 256 mod 16) k.
Definition same_red (sgn : bool) (N r : Z) : bool :=
  let v := tied_value sgn N in
  if v (N mod 8) =? r then if v (N / 8 mod 8) =? r then if v (N / 64 mod 8) =? r then if v (N / 512 mod 8) =? r then v (N / 4096 mod 8) =? r else false else false else false else false.
Definition last_red (sgn : bool) (N q r : Z) : bool := tied_value sgn N (N / 32768 + 2 * q) =? r.
Definition reds (sgn : bool) : list Z := if sgn then solid_reds_signed else solid_reds.
Definition red_check (sgn : bool) (mult table t j1 j0 : Z) : bool :=
  let v := eac_shown sgn (j0 + 8 * j1 + 64 * t) mult table in
  let r := v j0 in
  if v j1 =? r then if v (table / 2) =? r then if v (mult mod 8) =? r then if v (t + 4 * (table mod 2)) =? r then
    if existsb (fun q => v (mult / 8 + 2 * q) =? r) [0; 1; 2; 3] then existsb (Z.eqb r) (reds sgn) else true else true else true else true else true.
Lemma red_sweep : all_below 16 (fun mult => all_below 16 (fun table => all_below 4 (fun t => all_below 8 (fun j1 => all_below 8 (fun j0 => red_check false mult table t j1 j0))))) = true.
Proof. vm_compute. reflexivity. Qed.
Lemma red_sweep_signed : all_below 16 (fun mult => all_below 16 (fun table => all_below 4 (fun t => all_below 8 (fun j1 => all_below 8 (fun j0 => red_check true mult table t j1 j0))))) = true.
Proof. vm_compute. reflexivity. Qed.
Lemma red_checked sgn mult table t j1 j0 : 0 <= mult < 16 -> 0 <= table < 16 -> 0 <= t < 4 -> 0 <= j1 < 8 -> 0 <= j0 < 8 -> red_check sgn mult table t j1 j0 = true.
Proof.
  intros A B C D E. destruct sgn; [pose proof (all_below_spec 16 _ red_sweep_signed _ A) as H|pose proof (all_below_spec 16 _ red_sweep _ A) as H]; cbv beta in H;
    exact (all_below_spec 8 _ (all_below_spec 8 _ (all_below_spec 4 _ (all_below_spec 16 _ H _ B) _ C) _ D) _ E).
Qed.
Definition solid_data : list (Z * Z) := [(0, 0); (769, 0); (3330, 0); (4, 0); (773, 0); (3334, 0); (776, 0); (777, 0); (3338, 0); (780, 0); (781, 0); (3342, 0); (3344, 0); (3345, 0); (3346, 0); (3348, 0); (3349, 0); (3350, 0); (37449, 0); (32, 0); (801, 0); (3362, 0); (36, 0); (805, 0); (3366, 0); (808, 0); (809, 0); (3370, 0); (812, 0); (813, 0); (3374, 0); (3376, 0); (3377, 0); (3378, 0); (3380, 0); (3381, 0); (3382, 0); (832, 0); (833, 0); (3394, 0); (836, 0); (837, 0); (3398, 0); (840, 0); (841, 0); (3402, 0); (844, 0); (845, 0); (3406, 0); (3408, 0); (3409, 0); (3410, 0); (3412, 0); (3413, 0); (3414, 0); (864, 0); (865, 0); (3426, 0); (868, 0); (869, 0); (3430, 0); (872, 0); (873, 0); (3434, 0); (876, 0); (877, 0); (3438, 0); (3440, 0); (3441, 0); (3442, 0); (3444, 0); (3445, 0); (3446, 0); (3456, 0); (3457, 0); (3458, 0); (3460, 0); (3461, 0); (3462, 0); (3464, 0); (3465, 0); (3466, 0); (3468, 0); (3469, 0); (3470, 0); (3472, 0); (3473, 0); (3474, 0); (3476, 0); (3477, 0); (3478, 0); (3488, 0); (3489, 0); (3490, 0); (3492, 0); (3493, 0); (3494, 0); (3496, 0); (3497, 0); (3498, 0); (3500, 0); (3501, 0); (3502, 0); (3504, 0); (3505, 0); (3506, 0); (3508, 0); (3509, 0); (3510, 0); (28086, 3); (511, 0)].
Definition solid_data_signed : list (Z * Z) := [(128, 0); (9362, 1); (28086, 3); (0, 0); (1, 0); (8, 0); (9, 0); (37449, 0); (18724, 2); (64, 0); (65, 0); (72, 0); (73, 0); (65535, 3); (18812, 2)].
Definition solids (sgn : bool) : list (Z * Z) := if sgn then solid_data_signed else solid_data.
Definition solid_check (sgn : bool) : bool := forallb (fun '(r, (N, q)) => (0 <=? N) && (N <? 65536) && (0 <=? q) && (q <? 4) && same_red sgn N r && last_red sgn N q r) (combine (reds sgn) (solids sgn)) && forallb (fun r => existsb (fun '(r', _) => r =? r') (combine (reds sgn) (solids sgn))) (reds sgn).
Lemma solid_sweep : solid_check false && solid_check true = true.
Proof. vm_compute. reflexivity. Qed.
Lemma solid_checked (sgn : bool) r : In r (reds sgn) -> exists N q, 0 <= N < 65536 /\ 0 <= q < 4 /\ same_red sgn N r = true /\ last_red sgn N q r = true.
Proof.
  intros H. assert (solid_check sgn = true) as A by (pose proof solid_sweep as A; apply andb_prop in A; destruct sgn; tauto). unfold solid_check in A. apply andb_prop in A. destruct A as [A C].
  pose proof (proj1 (forallb_forall _ _) C r H) as D. apply existsb_exists in D. destruct D as ([r' [N q]] & I & E). apply Z.eqb_eq in E. subst r'.
  pose proof (proj1 (forallb_forall _ _) A _ I) as F. cbv beta iota in F. repeat (apply andb_prop in F; destruct F as [F ?]). exists N, q. repeat match goal with Q : (_ <=? _) = true |- _ => apply Z.leb_le in Q | Q : (_ <? _) = true |- _ => apply Z.ltb_lt in Q end. auto with zarith.
Qed.
Lemma same_red_spec sgn N r : same_red sgn N r = true <-> tied_value sgn N (N mod 8) = r /\ tied_value sgn N (N / 8 mod 8) = r /\ tied_value sgn N (N / 64 mod 8) = r /\ tied_value sgn N (N / 512 mod 8) = r /\ tied_value sgn N (N / 4096 mod 8) = r.
Proof.
  unfold same_red. cbv zeta. destruct (Z.eqb_spec (tied_value sgn N (N mod 8)) r); [|split; [discriminate|tauto]]. destruct (Z.eqb_spec (tied_value sgn N (N / 8 mod 8)) r); [|split; [discriminate|tauto]].
  destruct (Z.eqb_spec (tied_value sgn N (N / 64 mod 8)) r); [|split; [discriminate|tauto]]. destruct (Z.eqb_spec (tied_value sgn N (N / 512 mod 8)) r); [|split; [discriminate|tauto]]. rewrite Z.eqb_eq. tauto.
Qed.
Lemma solid_pattern (sgn : bool) a r : (forall t, 0 <= t < 16 -> a t = r) -> (eac_pattern sgn a <-> In r (reds sgn)).
Proof.
  intros Ha. split.
  - intros (base & mult & table & i & Hb & Hm & Ht & Hi & HT & E). assert (forall t, 0 <= t < 16 -> eac_shown sgn base mult table (i t) = r) as T by (intros t H; rewrite <- E by exact H; apply Ha, H). unfold tied in HT.
    pose proof (Hi 15 ltac:(lia)) as I15. pose proof (Hi 11 ltac:(lia)) as I11. pose proof (Hi 7 ltac:(lia)) as I7. pose proof (Hi 3 ltac:(lia)) as I3. pose proof (Hi 14 ltac:(lia)) as I14. pose proof (Hi 10 ltac:(lia)) as I10.
    assert (base = i 15 + 8 * i 11 + 64 * (i 7 mod 4) /\ table / 2 = i 3 /\ table mod 2 = i 7 / 4 /\ mult mod 8 = i 14 /\ mult / 8 = i 10 mod 2) as (D0 & D1 & D2 & D3 & D4).
    { revert HT I15 I11 I7 I3 I14 I10. generalize (i 15), (i 11), (i 7), (i 3), (i 14), (i 10). clear - Hb Hm Ht. intros x0 x1 x2 x3 x4 x5 HT **.
      replace ((x0 + 8 * x1 + 64 * x2 + 512 * x3 + 4096 * x4 + 32768 * x5) mod 65536) with (x0 + 8 * x1 + 64 * x2 + 512 * x3 + 4096 * x4 + 32768 * (x5 mod 2)) in HT by (Z.to_euclidean_division_equations; lia).
      repeat split; Z.to_euclidean_division_equations; lia. }
    assert (0 <= i 7 mod 4 < 4) as R7 by (apply Z.mod_pos_bound; lia).
    pose proof (red_checked sgn mult table (i 7 mod 4) (i 11) (i 15) Hm Ht R7 I11 I15) as C. unfold red_check in C. rewrite <- D0, D1, D2, D3, D4 in C. replace (i 7 mod 4 + 4 * (i 7 / 4)) with (i 7) in C by (clear; Z.to_euclidean_division_equations; lia).
    cbv zeta in C. rewrite !T, !Z.eqb_refl in C by lia.
    assert (existsb (fun q => eac_shown sgn base mult table (i 10 mod 2 + 2 * q) =? r) [0; 1; 2; 3] = true) as Q.
    { apply existsb_exists. exists (i 10 / 2). split; [assert (i 10 / 2 = 0 \/ i 10 / 2 = 1 \/ i 10 / 2 = 2 \/ i 10 / 2 = 3) as [-> | [-> | [-> | ->]]] by (clear - I10; Z.to_euclidean_division_equations; lia); cbn; tauto|].
      replace (i 10 mod 2 + 2 * (i 10 / 2)) with (i 10) by (clear; Z.to_euclidean_division_equations; lia). rewrite T by lia. apply Z.eqb_refl. }
    rewrite Q in C. apply existsb_exists in C. destruct C as (x & I & X). apply Z.eqb_eq in X. subst x. exact I.
  - intros H. destruct (solid_checked sgn r H) as (N & q & HN & Hq & S & Lq). apply same_red_spec in S. destruct S as (S0 & S1 & S2 & S3 & S4). unfold last_red in Lq. apply Z.eqb_eq in Lq.
    exists (N mod 256), (N / 4096), (N / 256 mod 16), (fun t => if t =? 11 then N / 8 mod 8 else if t =? 7 then N / 64 mod 8 else if t =? 3 then N / 512 mod 8 else if t =? 14 then N / 4096 mod 8 else if t =? 10 then N / 32768 + 2 * q else N mod 8).
    split; [apply Z.mod_pos_bound; lia|]. split; [clear - HN; Z.to_euclidean_division_equations; lia|]. split; [apply Z.mod_pos_bound; lia|]. split; [|split].
    + intros t _. repeat match goal with |- context [if ?c then _ else _] => destruct c end; try (apply Z.mod_pos_bound; lia). clear - HN Hq. Z.to_euclidean_division_equations; lia.
    + unfold tied. cbn [Z.eqb Pos.eqb]. clear - HN Hq. Z.to_euclidean_division_equations; lia.
    + intros t Ht. rewrite Ha by exact Ht. unfold tied_value in *. repeat match goal with |- context [if ?c then _ else _] => destruct c end; symmetry; assumption.
Qed.
Lemma one_red m (sgn : bool) w h r : 4 <= w < 2 ^ 64 -> 4 <= h < 2 ^ 64 -> blocks w 4 * blocks h 4 * 8 < 2 ^ 63 -> 4 * (w * h) < 2 ^ 63 -> 0 <= r < 256 -> (shows_solid (dec_r11 m sgn) w h (rgba r 0 0 255) <-> In r (reds sgn)).
Proof.
  intros Hw Hh HZ HA Hr. destruct (r11_exactly m sgn w h (fun _ _ => rgba r 0 0 255) ltac:(lia) ltac:(lia) HZ HA) as [C1 C2]. split.
  - intros (data & image & image' & B & H4 & E & S). destruct (C2 data image image' B H4 E S 0 0 ltac:(lia) ltac:(lia) ltac:(lia) ltac:(lia)) as (f & (a & A & F) & Q).
    apply (solid_pattern sgn a r); [|exact A]. intros t Ht. specialize (F t Ht).
    pose proof (Q (t mod 4) (t / 4) ltac:(clear; Z.to_euclidean_division_equations; lia) ltac:(clear - Ht; Z.to_euclidean_division_equations; lia) ltac:(clear - Hw; Z.to_euclidean_division_equations; lia) ltac:(clear - Ht Hh; Z.to_euclidean_division_equations; lia)) as P.
    cbv beta in P. replace ((t / 4 - 4 * 0) * 4 + (t mod 4 - 4 * 0)) with t in P by (clear; Z.to_euclidean_division_equations; lia). rewrite F in P. unfold rgba in P. lia.
  - intros H. destruct C1 as (data & B & L & D).
    + intros bx by_ _ _ _ _. exists (fun _ => rgba r 0 0 255). split; [|reflexivity]. exists (fun _ => r). split; [apply (solid_pattern sgn _ r); [reflexivity|exact H]|reflexivity].
    + assert (0 <= w * h) by (apply Z.mul_nonneg_nonneg; lia). assert (zlen (repeat 0 (Z.to_nat (w * h))) = w * h) as LR by (unfold zlen; rewrite repeat_length; lia).
      destruct (D (repeat 0 (Z.to_nat (w * h))) ltac:(lia) ltac:(lia)) as (image' & E & S). exists data, (repeat 0 (Z.to_nat (w * h))), image'. split; [exact B|]. split; [lia|]. split; assumption.
Qed.
(** The format has all of them. *)
Definition solid_block (r : Z) : list Z := [r; 13; 0x92; 0x49; 0x24; 0x92; 0x49; 0x24].
Definition solid_low : Z := 13 * 2 ^ 48 + 0x92 * 2 ^ 40 + 0x49 * 2 ^ 32 + 0x24 * 2 ^ 24 + 0x92 * 2 ^ 16 + 0x49 * 2 ^ 8 + 0x24.
Lemma solid_choices : all_below 16 (fun t => solid_low / 8 ^ (15 - across t) mod 8 =? 4) = true.
Proof. vm_compute. reflexivity. Qed.
Lemma solid_format r t : 0 <= r < 256 -> 0 <= t < 16 -> eac_red (solid_block r) 0 t = r.
Proof.
  intros Hr Ht. assert (bytes (solid_block r)) as B by (repeat constructor; unfold is_byte; lia).
  assert (forall k, is_byte (znth (solid_block r) k)) as K by (intros k; apply bytes_znth; exact B). destruct (word_head (solid_block r) 0) as (E1 & E2 & E3); try apply K.
  change (znth (solid_block r) 0) with r in E1. change (znth (solid_block r) (0 + 1)) with 13 in E2, E3. change (13 / 16) with 0 in E2. change (13 mod 16) with 13 in E3.
  assert (eac_index (etc_word (solid_block r) 0) t = 4) as I.
  { rewrite eac_digit by exact Ht. pose proof (across_range t Ht) as Ha. assert (etc_word (solid_block r) 0 = solid_low + r * 2 ^ 56) as -> by (change (etc_word (solid_block r) 0) with (r * 2 ^ 56 + 13 * 2 ^ 48 + 0x92 * 2 ^ 40 + 0x49 * 2 ^ 32 + 0x24 * 2 ^ 24 + 0x92 * 2 ^ 16 + 0x49 * 2 ^ 8 + 0x24); unfold solid_low; ring).
    replace (2 ^ 56) with (2 ^ 8 * (8 ^ across t * 8 * 8 ^ (15 - across t))) by (replace 8 with (8 ^ 1) at 3 by reflexivity; rewrite <- !Z.pow_add_r by lia; replace (across t + 1 + (15 - across t)) with 16 by ring; reflexivity).
    replace (solid_low + r * (2 ^ 8 * (8 ^ across t * 8 * 8 ^ (15 - across t)))) with (solid_low + (r * 2 ^ 8 * 8 ^ across t * 8) * 8 ^ (15 - across t)) by ring.
    rewrite Z.div_add by (apply Z.pow_nonzero; lia). rewrite Z.mod_add by lia. apply Z.eqb_eq. exact (all_below_spec 16 _ solid_choices t Ht). }
  unfold eac_red, eac_value11, eac_modifier, eac_scale. cbv zeta. rewrite I, E1, E2, E3. change (znth (nth (Z.to_nat 13) eac_modifiers []) 4) with 0. cbn [Z.eqb]. unfold clamp_to. rewrite Z.min_r, Z.max_r by lia. clear. Z.to_euclidean_division_equations; lia.
Qed.
