(** * C68: the number of leading zeros *)
From Verif Require Import Base BaseLemmas ModelClz SpecLoops.

Lemma top_bit x : 0 <= x < 2 ^ 32 -> (Z.land x 0x80000000 =? 0) = (x <? 2 ^ 31).
Proof.
  intros Hx. change 0x80000000 with (2 ^ 31).
  assert (Z.testbit x 31 = negb (x <? 2 ^ 31)) as T.
  { rewrite Z.testbit_eqb by lia. destruct (Z.ltb_spec x (2 ^ 31)) as [L|L].
    - rewrite Z.div_small by lia. reflexivity.
    - replace (x / 2 ^ 31) with 1; [reflexivity|]. apply (Z.div_unique x (2 ^ 31) 1 (x - 2 ^ 31)); lia. }
  destruct (Z.eqb_spec (Z.land x (2 ^ 31)) 0) as [E|E].
  - assert (Z.testbit (Z.land x (2 ^ 31)) 31 = false) as B by (rewrite E; apply Z.testbit_0_l). rewrite Z.land_spec, Z.pow2_bits_true, andb_true_r in B by lia.
    rewrite B in T. destruct (x <? 2 ^ 31); [reflexivity|discriminate].
  - destruct (x <? 2 ^ 31); [|reflexivity]. exfalso. apply E. apply Z.bits_inj_0. intros k. rewrite Z.land_spec. destruct (Z.eq_dec k 31) as [->|N].
    + rewrite T. reflexivity.
    + rewrite Z.pow2_bits_false by lia. apply andb_false_r.
Qed.

Lemma clz_loop_ok m n : forall ret x, 0 <= x < 2 ^ 32 -> ret = 32 - Z.of_nat n -> 0 <= ret ->
  exists r, clz_loop m (S n) ret x ret = Ok r /\ ret <= r <= 32 /\ (x = 0 -> r = 32) /\ (r < 32 -> 2 ^ 31 <= x * 2 ^ (r - ret) < 2 ^ 32) /\ (r = 32 -> x * 2 ^ (32 - ret) < 2 ^ 32).
Proof.
  induction n as [|n IH]; intros ret x Hx Hr H0; cbn [clz_loop]; rewrite top_bit by exact Hx.
  - replace ret with 32 by lia. rewrite orb_true_r. exists 32. split; [reflexivity|]. split; [lia|]. split; [reflexivity|]. split; [lia|]. intros _. change (2 ^ (32 - 32)) with 1. lia.
  - destruct (Z.eqb_spec ret 32) as [E|_]; [lia|]. rewrite orb_false_r. destruct (Z.ltb_spec x (2 ^ 31)) as [L|L]; cbn [negb].
    + rewrite ua_ok by lia. cbn [bind].
      change (ushl m 32 x 1) with (Ok (Z.shiftl x 1 mod 2 ^ 32)). rewrite Z.shiftl_mul_pow2 by lia. change (2 ^ 1) with 2. rewrite (Z.mod_small (x * 2)) by lia. cbn [bind].
      rewrite ia_ok by lia. cbn [bind].
      destruct (IH (ret + 1) (x * 2) ltac:(lia) ltac:(lia) ltac:(lia)) as (r & E & R & Z0 & A & B). exists r. split; [exact E|]. split; [lia|]. split; [intros X; apply Z0; lia|].
      assert (forall k, ret + 1 <= k -> x * 2 * 2 ^ (k - (ret + 1)) = x * 2 ^ (k - ret)) as P.
      { intros k Hk. replace (k - ret) with (Z.succ (k - (ret + 1))) by lia. rewrite Z.pow_succ_r by lia. ring. }
      split; [intros R1; rewrite <- P by lia; exact (A R1)|intros R1; rewrite <- P by lia; exact (B R1)].
    + exists ret. split; [reflexivity|]. split; [lia|]. split; [lia|]. split; [intros _; rewrite Z.sub_diag; change (2 ^ 0) with 1; lia|lia].
Qed.

(** `__builtin_clz` never panics and gives the number of leading zeros: 32 for 0,
    otherwise the place of the first one. *)
Theorem C68_clz m x : 0 <= x < 2 ^ 32 ->
  exists r, builtin_clz m x = Ok r /\ 0 <= r <= 32 /\ (r = 32 <-> x = 0) /\ (x <> 0 -> 2 ^ (31 - r) <= x < 2 ^ (32 - r)).
Proof.
  intros Hx. destruct (clz_loop_ok m 32 0 x Hx eq_refl ltac:(lia)) as (r & E & R & Z0 & A & B). exists r. split; [exact E|]. split; [exact R|].
  rewrite Z.sub_0_r in A, B.
  assert (r = 32 <-> x = 0) as I by (split; [intros E32; specialize (B E32); lia|exact Z0]). split; [exact I|].
  intros NZ. assert (r < 32) as R2 by (destruct (Z.eq_dec r 32) as [E32|]; [apply I in E32; contradiction|lia]). specialize (A R2).
  assert (0 < 2 ^ r) by (apply Z.pow_pos_nonneg; lia).
  assert (2 ^ (31 - r) * 2 ^ r = 2 ^ 31) by (rewrite <- Z.pow_add_r by lia; f_equal; lia).
  assert (2 ^ (32 - r) * 2 ^ r = 2 ^ 32) by (rewrite <- Z.pow_add_r by lia; f_equal; lia).
  split; [apply (Z.mul_le_mono_pos_r _ _ (2 ^ r)); lia|apply (Z.mul_lt_mono_pos_r (2 ^ r)); lia].
Qed.
(** The loop comes to an end, with this outcome. *)
Theorem C68_clz_ends m x : runs (clz_body m) (0, x, 0) (builtin_clz m x).
Proof.
  assert (forall n ret x, ret = 32 - Z.of_nat n -> 0 <= ret -> runs (clz_body m) (ret, x, ret) (clz_loop m (S n) ret x ret)) as G; [|exact (G 32%nat 0 x eq_refl ltac:(lia))].
  induction n as [|n IH]; intros ret y Hr H0; cbn [clz_loop].
  - replace ret with 32 by lia. rewrite orb_true_r. apply runs_done. unfold clz_body. rewrite orb_true_r. reflexivity.
  - destruct (negb (Z.land y 0x80000000 =? 0) || (ret =? 32)) eqn:E; [apply runs_done; unfold clz_body; rewrite E; reflexivity|].
    rewrite ua_ok by lia. change (ushl m 32 y 1) with (Ok (Z.shiftl y 1 mod 2 ^ 32)). cbn [bind]. rewrite ia_ok by lia. cbn [bind].
    apply runs_more with (ret + 1, Z.shiftl y 1 mod 2 ^ 32, ret + 1).
    + unfold clz_body. rewrite E. rewrite ua_ok by lia. change (ushl m 32 y 1) with (Ok (Z.shiftl y 1 mod 2 ^ 32)). cbn [bind]. rewrite ia_ok by lia. reflexivity.
    + exact (IH (ret + 1) (Z.shiftl y 1 mod 2 ^ 32) ltac:(lia) ltac:(lia)).
Qed.
Example C68_ex m : builtin_clz m 0x00012345 = Ok 15 /\ builtin_clz m 0 = Ok 32 /\ builtin_clz m 0xffffffff = Ok 0.
Proof. destruct m; repeat split; vm_compute; reflexivity. Qed.
Print Assumptions C68_clz.
Print Assumptions C68_clz_ends.
