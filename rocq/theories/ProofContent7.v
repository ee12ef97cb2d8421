(** * Proofs about the pictures BC7 can store. *)
From Verif Require Import Base BaseLemmas BitLemmas ModelColor SpecImage SpecBits SpecBptc SpecBc SpecBc7 SpecCut ProofBits ProofCut SpecEncode ProofEncode ProofEncodeSolid SpecContent ProofContent SpecContent7.

(** ** Entries of packed numbers *)
Lemma pack_app l1 l2 : pack (l1 ++ l2) = pack l1 + 2 ^ Z.of_nat (width l1) * pack l2.
Proof.
  induction l1 as [|[n v] r IH]; [cbn [app pack width]; change (2 ^ Z.of_nat 0) with 1; lia|]. cbn [app pack width]. rewrite IH, Nat2Z.inj_add, Z.pow_add_r by lia. ring.
Qed.
Lemma width_app l1 l2 : width (l1 ++ l2) = (width l1 + width l2)%nat.
Proof. induction l1 as [|[n v] r IH]; [reflexivity|]. cbn [app width]. rewrite IH. lia. Qed.
Lemma entry_at l1 n v l2 : packable (l1 ++ (n, v) :: l2) -> pack (l1 ++ (n, v) :: l2) / 2 ^ Z.of_nat (width l1) mod 2 ^ Z.of_nat n = v.
Proof.
  intros H. apply Forall_app in H. destruct H as [H1 H2]. inversion H2 as [|? ? H0 _]; subst. cbn [fst snd] in H0. rewrite pack_app. cbn [pack]. pose proof (pack_range l1 H1) as R.
  eapply field_at; [| |exact R|exact H0|reflexivity]; lia.
Qed.
Definition ent (n v : Z) : nat * Z := (Z.to_nat n, v).
Definition wid (l : list (nat * Z)) : Z := Z.of_nat (width l).
Lemma wid_app l1 l2 : wid (l1 ++ l2) = wid l1 + wid l2. Proof. unfold wid. rewrite width_app. lia. Qed.
Lemma wid_cons n v l : 0 <= n -> wid (ent n v :: l) = n + wid l. Proof. intros H. unfold wid, ent. cbn [width]. lia. Qed.
Lemma at_ent l1 n v l2 : 0 <= n -> packable (l1 ++ ent n v :: l2) -> pack (l1 ++ ent n v :: l2) / 2 ^ wid l1 mod 2 ^ n = v.
Proof. intros Hn H. pose proof (entry_at l1 (Z.to_nat n) v l2 H) as E. rewrite Z2Nat.id in E by lia. exact E. Qed.
Lemma zrange_split n k : 0 <= k < n -> zrange 0 n = zrange 0 k ++ k :: zrange (k + 1) n.
Proof.
  intros H. rewrite <- zrange_cons by lia. assert (forall a, 0 <= a -> zrange 0 (k + a) = zrange 0 k ++ zrange k (k + a)) as Q.
  { intros a Ha. pattern a. apply natlike_ind; [rewrite Z.add_0_r, (zrange_nil k k), app_nil_r by lia; reflexivity| |exact Ha].
    intros x Hx IH. unfold Z.succ. rewrite Z.add_assoc, zrange_snoc, IH, (zrange_snoc k (k + x)), app_assoc by lia. reflexivity. }
  specialize (Q (n - k) ltac:(lia)). replace (k + (n - k)) with n in Q by ring. exact Q.
Qed.
(** A run of entries. *)
Definition run (N : Z) (n g : Z -> Z) : list (nat * Z) := map (fun k => ent (n k) (g k)) (zrange 0 N).
Lemma run_at l1 N n g l2 k : 0 <= k < N -> (forall k, 0 <= k < N -> 0 <= n k) -> packable (l1 ++ run N n g ++ l2) ->
  pack (l1 ++ run N n g ++ l2) / 2 ^ (wid l1 + wid (run k n g)) mod 2 ^ n k = g k.
Proof.
  intros Hk Hn H. unfold run in *. rewrite (zrange_split N k Hk), map_app in *. cbn [map] in *. rewrite <- app_assoc in *. cbn [app] in *. rewrite app_assoc in *.
  rewrite <- wid_app. apply at_ent; [apply Hn, Hk|exact H].
Qed.
Lemma run_snoc k n g : 0 <= k -> 0 <= n k -> wid (run (k + 1) n g) = wid (run k n g) + n k.
Proof. intros Hk Hn. unfold run. rewrite zrange_snoc, map_app, wid_app by lia. cbn [map]. rewrite wid_cons by exact Hn. unfold wid at 2. cbn [width]. lia. Qed.
Lemma run_wid_const k n g : 0 <= k -> 0 <= n -> wid (run k (fun _ => n) g) = n * k.
Proof.
  intros Hk Hn. pattern k. apply natlike_ind; [cbn; lia| |exact Hk]. intros x Hx IH. unfold Z.succ. rewrite run_snoc by lia. rewrite IH. lia.
Qed.
Lemma run_packs N n g : (forall k, 0 <= k < N -> 0 <= n k /\ 0 <= g k < 2 ^ n k) -> packable (run N n g).
Proof.
  intros H. apply Forall_forall. intros e He. unfold run in He. apply in_map_iff in He. destruct He as (k & <- & Hk). apply in_zrange in Hk. destruct (H k Hk) as [A B]. unfold ent. cbn [fst snd]. rewrite Z2Nat.id by lia. exact B.
Qed.
(** Index runs: one bit less for anchors. *)
Definition less (mode part t : Z) : Z := if is_anchor mode part t then 1 else 0.
Lemma index_wid mode part n g k : 1 <= n -> 0 <= k -> wid (run k (fun t => n - less mode part t) g) = n * k - anchors_below mode part k.
Proof.
  intros Hn Hk. pattern k. apply natlike_ind; [unfold anchors_below; cbn; lia| |exact Hk]. intros x Hx IH. unfold Z.succ.
  rewrite run_snoc by (unfold less; destruct (is_anchor mode part x); lia). rewrite IH. unfold anchors_below. rewrite zrange_snoc by lia. rewrite filter_app, zlen_app. cbn [filter]. unfold less.
  destruct (is_anchor mode part x); unfold zlen; cbn [length]; lia.
Qed.

Lemma filter_first (g : Z -> bool) n k : 0 <= k < n -> (forall x, 0 <= x < k -> g x = false) -> g k = true -> match filter g (zrange 0 n) with x :: _ => x | [] => 8 end = k.
Proof.
  intros Hk Low Top. rewrite (zrange_split n k Hk), filter_app. cbn [filter]. rewrite Top.
  assert (forall l, (forall x, In x l -> g x = false) -> filter g l = []) as Q. { induction l as [|x l IH]; intros H; [reflexivity|]. cbn [filter]. rewrite (H x) by (left; reflexivity). apply IH. intros y Hy. apply H. right. exact Hy. }
  rewrite Q; [reflexivity|]. intros x Hx. apply in_zrange in Hx. apply Low, Hx.
Qed.

(** ** Tables *)
Definition valid_mode (mode : Z) : Prop := 0 <= mode < 8.
Ltac modes mode := let H := fresh in assert (mode = 0 \/ mode = 1 \/ mode = 2 \/ mode = 3 \/ mode = 4 \/ mode = 5 \/ mode = 6 \/ mode = 7) as H by lia;
  destruct H as [-> | [-> | [-> | [-> | [-> | [-> | [-> | ->]]]]]]].
Lemma mode_sizes mode : 0 <= mode < 8 -> 1 <= NS mode <= 3 /\ 0 <= PB mode <= 6 /\ 0 <= RB mode /\ 0 <= ISB mode /\ 4 <= CB mode /\ 0 <= AB mode /\ 2 <= IB mode <= 4 /\ (IB2 mode = 0 \/ 2 <= IB2 mode <= 3 /\ NS mode = 1) /\
  (EPB mode = 0 \/ EPB mode = 1 /\ SPB mode = 0 /\ IB2 mode = 0) /\ (SPB mode = 0 \/ SPB mode = 1 /\ IB2 mode = 0) /\ (AB mode = 0 -> RB mode = 0).
Proof. intros H. modes mode; repeat (split; [vm_compute; intuition (discriminate || congruence)|]); vm_compute; intuition (discriminate || congruence). Qed.
Lemma anchor_sweep : all_below 8 (fun mode => all_below (2 ^ PB mode) (fun part => (anchors_below mode part 16 =? NS mode) && is_anchor mode part 0 &&
  all_below 16 (fun t => (0 <=? subset mode part t) && (subset mode part t <? NS mode)))) = true.
Proof. vm_compute. reflexivity. Qed.
Lemma anchor_facts mode part : 0 <= mode < 8 -> 0 <= part < 2 ^ PB mode -> anchors_below mode part 16 = NS mode /\ is_anchor mode part 0 = true /\ forall t, 0 <= t < 16 -> 0 <= subset mode part t < NS mode.
Proof.
  intros Hm Hp. pose proof (all_below_spec 8 _ anchor_sweep mode Hm) as A. cbv beta in A. pose proof (all_below_spec _ _ A part Hp) as B. cbv beta in B.
  apply andb_prop in B. destruct B as [B C]. apply andb_prop in B. destruct B as [B D]. apply Z.eqb_eq in B. split; [exact B|]. split; [exact D|].
  intros t Ht. pose proof (all_below_spec 16 _ C t Ht) as E. cbv beta in E. apply andb_prop in E. destruct E as [E F]. apply Z.leb_le in E. apply Z.ltb_lt in F. lia.
Qed.
Lemma weight_swap n k : 2 <= n <= 4 -> 0 <= k < 2 ^ n -> znth (weights n) (2 ^ n - 1 - k) = 64 - znth (weights n) k.
Proof.
  intros Hn Hk. assert (n = 2 \/ n = 3 \/ n = 4) as C by lia. apply Z.eqb_eq.
  destruct C as [-> | [-> | ->]]; revert k Hk; match goal with |- forall k, 0 <= k < ?N -> (@?p k) = true => apply (all_below_spec N p) end; vm_compute; reflexivity.
Qed.
Lemma lerp_swap a b w : lerp64 a b w = lerp64 b a (64 - w).
Proof. unfold lerp64. f_equal. ring. Qed.

(** ** Blocks whose anchors have small indices *)
Section Stored.
Context (mode part rot isel : Z) (v : Z -> Z -> Z) (p i j : Z -> Z).
Context (Hm : 0 <= mode < 8) (Hpart : 0 <= part < 2 ^ PB mode) (Hrot : 0 <= rot < 2 ^ RB mode) (Hisel : 0 <= isel < 2 ^ ISB mode) (He : bc7_ends mode v p).
Context (Hi : forall t, 0 <= t < 16 -> 0 <= i t < 2 ^ (IB mode - less mode part t)).
Context (Hj : IB2 mode <> 0 -> forall t, 0 <= t < 16 -> 0 <= j t < 2 ^ (IB2 mode - less mode part t)).
Let head := [ent (mode + 1) (2 ^ mode); ent (PB mode) part; ent (RB mode) rot; ent (ISB mode) isel].
Let colours := run (6 * NS mode) (fun _ => CB mode) (fun k => v (k / (2 * NS mode)) (k mod (2 * NS mode))).
Let alphas := run (2 * NS mode) (fun _ => AB mode) (v 3).
Let pbits := if EPB mode =? 1 then run (2 * NS mode) (fun _ => 1) p else if SPB mode =? 1 then run (NS mode) (fun _ => 1) (fun s => p (2 * s)) else [].
Let first := run 16 (fun t => IB mode - less mode part t) i.
Let second := if IB2 mode =? 0 then [] else run 16 (fun t => IB2 mode - less mode part t) j.
Let L := head ++ colours ++ alphas ++ pbits ++ first ++ second.
Let blk := to_bytes 16 (pack L).

Lemma less_bound t : 0 <= less mode part t <= 1. Proof. unfold less. destruct (is_anchor mode part t); lia. Qed.
Lemma head_wid : wid head = o_color mode.
Proof. destruct (mode_sizes mode Hm) as (_ & A & B & C & _). unfold head, o_color, o_isel, o_rot, o_part. rewrite !wid_cons by lia. unfold wid. cbn [width]. lia. Qed.
Lemma colours_wid : wid colours = 3 * (2 * NS mode) * CB mode.
Proof. destruct (mode_sizes mode Hm) as (A & _ & _ & _ & C & _). unfold colours. rewrite run_wid_const by lia. ring. Qed.
Lemma alphas_wid : wid alphas = 2 * NS mode * AB mode.
Proof. destruct (mode_sizes mode Hm) as (A & _ & _ & _ & _ & C & _). unfold alphas. rewrite run_wid_const by lia. ring. Qed.
Lemma pbits_wid : wid pbits = 2 * NS mode * EPB mode + NS mode * SPB mode.
Proof.
  destruct (mode_sizes mode Hm) as (A & _ & _ & _ & _ & _ & _ & _ & B & C & _). unfold pbits. destruct B as [B|(B & B' & _)].
  - rewrite B. cbn [Z.eqb]. destruct C as [C|[C _]]; rewrite C; cbn [Z.eqb Pos.eqb]; [unfold wid; cbn [width]; lia|]. rewrite run_wid_const by lia. ring.
  - rewrite B, B'. cbn [Z.eqb Pos.eqb]. rewrite run_wid_const by lia. ring.
Qed.
Lemma first_wid : wid first = 16 * IB mode - NS mode.
Proof. destruct (mode_sizes mode Hm) as (_ & _ & _ & _ & _ & _ & A & _). destruct (anchor_facts mode part Hm Hpart) as (B & _). unfold first. rewrite index_wid by lia. rewrite B. ring. Qed.
Lemma L_packs : packable L.
Proof.
  destruct (mode_sizes mode Hm) as (N & A & B & C & D & E & F & G & _). destruct He as (V & V3 & P & _).
  unfold packable, L. repeat (apply Forall_app; split).
  - unfold head, ent. repeat (apply Forall_cons; [cbn [fst snd]; rewrite Z2Nat.id by lia|]); [|exact Hpart|exact Hrot|exact Hisel|apply Forall_nil]. split; [apply Z.pow_nonneg; lia|apply Z.pow_lt_mono_r; lia].
  - apply run_packs. intros k Hk. split; [lia|]. apply V; [|apply Z.mod_pos_bound; lia]. split; [apply Z.div_pos; lia|apply Z.div_lt_upper_bound; lia].
  - apply run_packs. intros k Hk. split; [lia|]. apply V3, Hk.
  - unfold pbits. destruct (EPB mode =? 1); [apply run_packs; intros k Hk; split; [lia|apply P, Hk]|]. destruct (SPB mode =? 1); [|apply Forall_nil].
    apply run_packs. intros k Hk. split; [lia|apply P; lia].
  - apply run_packs. intros k Hk. split; [pose proof (less_bound k); lia|apply Hi, Hk].
  - unfold second. destruct (Z.eqb_spec (IB2 mode) 0) as [Z0|Z0]; [apply Forall_nil|]. apply run_packs. intros k Hk. split; [pose proof (less_bound k); lia|apply Hj; assumption].
Qed.
Lemma L_wid : wid L <= 128.
Proof.
  unfold L. rewrite !wid_app, head_wid, colours_wid, alphas_wid, pbits_wid, first_wid.
  assert (wid second = if IB2 mode =? 0 then 0 else 16 * IB2 mode - NS mode) as ->.
  { destruct (mode_sizes mode Hm) as (_ & _ & _ & _ & _ & _ & _ & G & _). destruct (anchor_facts mode part Hm Hpart) as (B & _). unfold second. destruct (Z.eqb_spec (IB2 mode) 0) as [Z0|Z0]; [reflexivity|]. rewrite index_wid by lia. rewrite B. ring. }
  assert (forall k, 0 <= k < 8 -> o_color k + (3 * (2 * NS k) * CB k + (2 * NS k * AB k + (2 * NS k * EPB k + NS k * SPB k + (16 * IB k - NS k + (if IB2 k =? 0 then 0 else 16 * IB2 k - NS k))))) <= 128) as Q by (intros k Hk; modes k; vm_compute; discriminate).
  exact (Q mode Hm).
Qed.
Lemma blk_at o n : bits blk o n = pack L / 2 ^ o mod 2 ^ n.
Proof.
  unfold bits, blk. rewrite le_to_bytes; [reflexivity|]. pose proof (pack_range L L_packs) as R. pose proof L_wid as W. unfold wid in W. change (256 ^ Z.of_nat 16) with (2 ^ 128).
  assert (2 ^ Z.of_nat (width L) <= 2 ^ 128) by (apply Z.pow_le_mono_r; lia). lia.
Qed.
Lemma blk_mode : bc7_mode blk = mode.
Proof.
  assert (exists R, pack L = 2 ^ mode + 2 ^ (mode + 1) * R) as (R & E).
  { exists (pack (tl L)). unfold L, head, ent. cbn [app tl pack]. rewrite Z2Nat.id by lia. reflexivity. }
  assert (forall k, bits blk k 1 = (2 ^ mode + 2 ^ (mode + 1) * R) / 2 ^ k mod 2) as F by (intros k; rewrite blk_at, E; reflexivity).
  assert (forall k, 0 <= k < mode -> ((2 ^ mode + 2 ^ (mode + 1) * R) / 2 ^ k mod 2 =? 1) = false) as Low.
  { intros k Hk. replace (2 ^ mode + 2 ^ (mode + 1) * R) with (((2 ^ (mode - k - 1) + 2 ^ (mode - k) * R) * 2) * 2 ^ k).
    2:{ replace (mode + 1) with ((mode - k) + 1 + k) by ring. replace mode with ((mode - k - 1) + 1 + k) at 3 by ring. rewrite !Z.pow_add_r by lia. change (2 ^ 1) with 2. ring. }
    rewrite Z.div_mul by (apply Z.pow_nonzero; lia). rewrite Z.mod_mul by lia. reflexivity. }
  assert (((2 ^ mode + 2 ^ (mode + 1) * R) / 2 ^ mode mod 2 =? 1) = true) as Top.
  { replace (2 ^ mode + 2 ^ (mode + 1) * R) with ((1 + R * 2) * 2 ^ mode) by (rewrite Z.pow_add_r by lia; change (2 ^ 1) with 2; ring). rewrite Z.div_mul by (apply Z.pow_nonzero; lia). rewrite Z.mod_add by lia. reflexivity. }
  unfold bc7_mode. apply filter_first; [exact Hm| |].
  - intros k Hk. cbv beta. rewrite F. apply Low, Hk.
  - cbv beta. rewrite F. exact Top.
Qed.
Lemma blk_part : bc7_part blk = part.
Proof.
  destruct (mode_sizes mode Hm) as (_ & A & _). unfold bc7_part. rewrite blk_mode, blk_at. replace (o_part mode) with (wid [ent (mode + 1) (2 ^ mode)]) by (rewrite wid_cons by lia; unfold wid, o_part; cbn [width]; lia).
  change L with ([ent (mode + 1) (2 ^ mode)] ++ ent (PB mode) part :: ([ent (RB mode) rot; ent (ISB mode) isel] ++ colours ++ alphas ++ pbits ++ first ++ second)). apply at_ent; [lia|]. exact L_packs.
Qed.
Lemma blk_rot : bc7_rot blk = rot.
Proof.
  destruct (mode_sizes mode Hm) as (_ & A & B & _). unfold bc7_rot. rewrite blk_mode, blk_at.
  replace (o_rot mode) with (wid [ent (mode + 1) (2 ^ mode); ent (PB mode) part]) by (rewrite !wid_cons by lia; unfold wid, o_rot, o_part; cbn [width]; lia).
  change L with ([ent (mode + 1) (2 ^ mode); ent (PB mode) part] ++ ent (RB mode) rot :: ([ent (ISB mode) isel] ++ colours ++ alphas ++ pbits ++ first ++ second)). apply at_ent; [lia|]. exact L_packs.
Qed.
Lemma blk_isel : bc7_isel blk = isel.
Proof.
  destruct (mode_sizes mode Hm) as (_ & A & B & C & _). unfold bc7_isel. rewrite blk_mode, blk_at.
  replace (o_isel mode) with (wid [ent (mode + 1) (2 ^ mode); ent (PB mode) part; ent (RB mode) rot]) by (rewrite !wid_cons by lia; unfold wid, o_isel, o_rot, o_part; cbn [width]; lia).
  change L with ([ent (mode + 1) (2 ^ mode); ent (PB mode) part; ent (RB mode) rot] ++ ent (ISB mode) isel :: (colours ++ alphas ++ pbits ++ first ++ second)). apply at_ent; [lia|]. exact L_packs.
Qed.
Lemma blk_colour c e : 0 <= c < 3 -> 0 <= e < 2 * NS mode -> bits blk (o_color mode + c * (2 * NS mode * CB mode) + e * CB mode) (CB mode) = v c e.
Proof.
  intros Hc Hee. destruct (mode_sizes mode Hm) as (N & _ & _ & _ & C & _). rewrite blk_at.
  assert (0 <= c * (2 * NS mode) + e < 6 * NS mode) as K by (assert (c * (2 * NS mode) <= 2 * (2 * NS mode)) by (apply Z.mul_le_mono_nonneg_r; lia); assert (0 <= c * (2 * NS mode)) by (apply Z.mul_nonneg_nonneg; lia); lia).
  pose proof (run_at head (6 * NS mode) (fun _ => CB mode) (fun k => v (k / (2 * NS mode)) (k mod (2 * NS mode))) (alphas ++ pbits ++ first ++ second) (c * (2 * NS mode) + e) K ltac:(intros; lia) L_packs) as E.
  cbv beta in E. rewrite head_wid, run_wid_const in E by lia. rewrite (Z.div_add_l c (2 * NS mode) e), (Z.div_small e (2 * NS mode)), Z.add_0_r in E by lia.
  rewrite (Z.add_comm (c * (2 * NS mode)) e), Z.mod_add, (Z.mod_small e (2 * NS mode)) in E by lia.
  replace (o_color mode + c * (2 * NS mode * CB mode) + e * CB mode) with (o_color mode + CB mode * (e + c * (2 * NS mode))) by ring. exact E.
Qed.
Lemma blk_alpha e : 0 <= e < 2 * NS mode -> bits blk (o_alpha mode + e * AB mode) (AB mode) = v 3 e.
Proof.
  intros Hee. destruct (mode_sizes mode Hm) as (N & _ & _ & _ & _ & C & _). rewrite blk_at.
  assert (L = (head ++ colours) ++ alphas ++ (pbits ++ first ++ second)) as EL by (unfold L; rewrite <- !app_assoc; reflexivity). pose proof L_packs as LP. rewrite EL in *.
  pose proof (run_at (head ++ colours) (2 * NS mode) (fun _ => AB mode) (v 3) (pbits ++ first ++ second) e Hee ltac:(intros; lia) LP) as E.
  cbv beta in E. rewrite wid_app, head_wid, colours_wid, run_wid_const in E by lia. unfold o_alpha. rewrite (Z.mul_comm e (AB mode)). exact E.
Qed.
Lemma blk_first t : 0 <= t < 16 -> texel_index blk mode part (o_index mode) (IB mode) t = i t.
Proof.
  intros Ht. destruct (mode_sizes mode Hm) as (N & _ & _ & _ & _ & _ & C & _). unfold texel_index. rewrite blk_at.
  assert (L = (head ++ colours ++ alphas ++ pbits) ++ first ++ second) as EL by (unfold L; rewrite <- !app_assoc; reflexivity). pose proof L_packs as LP. rewrite EL in *.
  pose proof (run_at (head ++ colours ++ alphas ++ pbits) 16 (fun t => IB mode - less mode part t) i second t Ht ltac:(intros; pose proof (less_bound k); lia) LP) as E.
  cbv beta in E. rewrite !wid_app, head_wid, colours_wid, alphas_wid, pbits_wid, index_wid in E by lia. fold (less mode part t).
  replace (o_index mode + IB mode * t - anchors_below mode part t) with (o_color mode + (3 * (2 * NS mode) * CB mode + (2 * NS mode * AB mode + (2 * NS mode * EPB mode + NS mode * SPB mode))) + (IB mode * t - anchors_below mode part t)); [exact E|].
  unfold o_index, o_pbit, o_alpha. ring.
Qed.
Lemma blk_second t : IB2 mode <> 0 -> 0 <= t < 16 -> texel_index blk mode part (o_index2 mode) (IB2 mode) t = j t.
Proof.
  intros NZ Ht. destruct (mode_sizes mode Hm) as (N & _ & _ & _ & _ & _ & C & D & _). unfold texel_index. rewrite blk_at.
  assert (L = (head ++ colours ++ alphas ++ pbits ++ first) ++ run 16 (fun t => IB2 mode - less mode part t) j ++ []) as EL by (unfold L, second; rewrite (proj2 (Z.eqb_neq _ _) NZ), app_nil_r, <- !app_assoc; reflexivity). pose proof L_packs as LP. rewrite EL in *.
  pose proof (run_at (head ++ colours ++ alphas ++ pbits ++ first) 16 (fun t => IB2 mode - less mode part t) j [] t Ht ltac:(intros; pose proof (less_bound k); lia) LP) as E.
  cbv beta in E. rewrite !wid_app, head_wid, colours_wid, alphas_wid, pbits_wid, first_wid, index_wid in E by lia. fold (less mode part t).
  replace (o_index2 mode + IB2 mode * t - anchors_below mode part t) with (o_color mode + (3 * (2 * NS mode) * CB mode + (2 * NS mode * AB mode + (2 * NS mode * EPB mode + NS mode * SPB mode + (16 * IB mode - NS mode)))) + (IB2 mode * t - anchors_below mode part t)); [exact E|].
  unfold o_index2, o_index, o_pbit, o_alpha. ring.
Qed.
Lemma blk_pbit e : EPB mode = 1 -> 0 <= e < 2 * NS mode -> bits blk (o_pbit mode + e) 1 = p e.
Proof.
  intros P1 Hee. destruct (mode_sizes mode Hm) as (N & _). rewrite blk_at.
  assert (L = (head ++ colours ++ alphas) ++ run (2 * NS mode) (fun _ => 1) p ++ (first ++ second)) as EL by (unfold L, pbits; rewrite P1, <- !app_assoc; reflexivity). pose proof L_packs as LP. rewrite EL in *.
  pose proof (run_at (head ++ colours ++ alphas) (2 * NS mode) (fun _ => 1) p (first ++ second) e Hee ltac:(intros; lia) LP) as E.
  cbv beta in E. rewrite !wid_app, head_wid, colours_wid, alphas_wid, run_wid_const in E by lia.
  replace (o_pbit mode + e) with (o_color mode + (3 * (2 * NS mode) * CB mode + 2 * NS mode * AB mode) + 1 * e); [exact E|]. unfold o_pbit, o_alpha. ring.
Qed.
Lemma blk_shared s : EPB mode <> 1 -> SPB mode = 1 -> 0 <= s < NS mode -> bits blk (o_pbit mode + s) 1 = p (2 * s).
Proof.
  intros P0 P1 Hs. destruct (mode_sizes mode Hm) as (N & _). rewrite blk_at.
  assert (L = (head ++ colours ++ alphas) ++ run (NS mode) (fun _ => 1) (fun s => p (2 * s)) ++ (first ++ second)) as EL by (unfold L, pbits; rewrite (proj2 (Z.eqb_neq _ _) P0), P1, <- !app_assoc; reflexivity). pose proof L_packs as LP. rewrite EL in *.
  pose proof (run_at (head ++ colours ++ alphas) (NS mode) (fun _ => 1) (fun s => p (2 * s)) (first ++ second) s Hs ltac:(intros; lia) LP) as E.
  cbv beta in E. rewrite !wid_app, head_wid, colours_wid, alphas_wid, run_wid_const in E by lia.
  replace (o_pbit mode + s) with (o_color mode + (3 * (2 * NS mode) * CB mode + 2 * NS mode * AB mode) + 1 * s); [exact E|]. unfold o_pbit, o_alpha. ring.
Qed.
Lemma blk_low n o e x : 0 <= e < 2 * NS mode -> bits blk (o + e * n) n = x ->
  endpoint blk mode o n e = if ((EPB mode =? 1) || (SPB mode =? 1))%bool then expand8 (n + 1) (2 * x + p e) else expand8 n x.
Proof.
  intros Hee Hx. unfold endpoint. rewrite Hx. destruct (Z.eq_dec (EPB mode) 1) as [E1|E1]; [rewrite blk_pbit by assumption; rewrite (proj2 (Z.eqb_eq _ _) E1); reflexivity|].
  rewrite (proj2 (Z.eqb_neq _ _) E1). cbn [orb]. destruct (Z.eq_dec (SPB mode) 1) as [E2|E2]; [rewrite (proj2 (Z.eqb_eq _ _) E2)|rewrite (proj2 (Z.eqb_neq _ _) E2); reflexivity]. destruct He as (_ & _ & _ & SH). assert (0 <= e / 2 < NS mode) as R by (clear - Hee; Z.to_euclidean_division_equations; lia).
  rewrite (blk_shared (e / 2)) by assumption. do 2 f_equal. pose proof (SH E2 (e / 2) R) as S.
  assert (e = 2 * (e / 2) \/ e = 2 * (e / 2) + 1) as [F|F] by (clear; Z.to_euclidean_division_equations; lia); [rewrite <- F; reflexivity|rewrite S, <- F; reflexivity].
Qed.
Lemma blk_end c e : 0 <= c < 4 -> 0 <= e < 2 * NS mode -> channel_endpoint blk mode c e = end_value mode v p c e.
Proof.
  intros Hc Hee. unfold channel_endpoint, end_value. cbv zeta. destruct (Z.eqb_spec c 3) as [->|C3]; cbn [andb].
  - destruct (AB mode =? 0); [reflexivity|]. apply blk_low; [exact Hee|apply blk_alpha, Hee].
  - apply blk_low; [exact Hee|apply blk_colour; [lia|exact Hee]].
Qed.
Lemma blk_channel c t : 0 <= c < 4 -> 0 <= t < 16 -> bc7_channel blk c t = mixed mode part isel v p i j c t.
Proof.
  intros Hc Ht. destruct (anchor_facts mode part Hm Hpart) as (_ & _ & SR). specialize (SR t Ht). unfold bc7_channel, mixed. cbv zeta. rewrite blk_mode, blk_part. rewrite !blk_end by lia. f_equal.
  assert (weight1 blk t = znth (weights (IB mode)) (i t)) as W1 by (unfold weight1; cbv zeta; rewrite blk_mode, blk_part, blk_first by exact Ht; reflexivity).
  assert (weight2 blk t = if IB2 mode =? 0 then znth (weights (IB mode)) (i t) else znth (weights (IB2 mode)) (j t)) as W2.
  { unfold weight2. cbv zeta. rewrite blk_mode, blk_part. destruct (Z.eq_dec (IB2 mode) 0) as [Z0|Z0]; [rewrite (proj2 (Z.eqb_eq _ _) Z0); exact W1|]. rewrite (proj2 (Z.eqb_neq _ _) Z0), blk_second by assumption. reflexivity. }
  unfold chosen_weight, alpha_weight, color_weight. cbv zeta. rewrite blk_isel, W1, W2. destruct (c =? 3); destruct (isel =? 1); reflexivity.
Qed.
Lemma rot_bound : 0 <= rot < 4.
Proof. assert (forall k, 0 <= k < 8 -> 2 ^ RB k <= 4) as Q by (intros k Hk; modes k; vm_compute; discriminate). specialize (Q mode Hm). lia. Qed.
Lemma blk_texel t : 0 <= t < 16 -> bc7_texel blk t = turned_channels rot (fun c => mixed mode part isel v p i j c t).
Proof.
  intros Ht. pose proof rot_bound as RB4. unfold bc7_texel, turned_channels. rewrite blk_mode, blk_rot. rewrite (proj2 (Z.eqb_neq mode 8)) by lia. cbv zeta.
  assert (rot = 0 \/ rot = 1 \/ rot = 2 \/ rot = 3) as C by lia. rewrite !blk_channel; [reflexivity| | | | | | | |]; try exact Ht;
    destruct C as [C|[C|[C|C]]]; rewrite C; cbn; lia.
Qed.
Lemma blk_stored : exists b, bytes b /\ zlen b = 16 /\ forall t, 0 <= t < 16 -> bc7_texel b t = turned_channels rot (fun c => mixed mode part isel v p i j c t).
Proof. exists blk. split; [apply to_bytes_bytes|]. split; [unfold zlen, blk; rewrite to_bytes_len; reflexivity|exact blk_texel]. Qed.
End Stored.

(** ** Anchors: exchange the end points where the index is too large *)
Definition other (e : Z) : Z := e + 1 - 2 * (e mod 2).
Section Swapped.
Context (mode part isel : Z) (v : Z -> Z -> Z) (p i j : Z -> Z).
Context (Hm : 0 <= mode < 8) (Hpart : 0 <= part < 2 ^ PB mode) (He : bc7_ends mode v p) (Hi : choice_below (2 ^ IB mode) i) (Hj : choice_below (2 ^ IB2 mode) j).
Definition large_i (s : Z) : bool := 2 ^ (IB mode - 1) <=? i (anchor mode part s).
Definition large_j (s : Z) : bool := 2 ^ (IB2 mode - 1) <=? j (anchor mode part s).
Definition large (c s : Z) : bool := if IB2 mode =? 0 then large_i s else if eqb (c =? 3) (isel =? 1) then large_i s else large_j s.
Definition v' (c e : Z) : Z := if large c (e / 2) then v c (other e) else v c e.
Definition p' (e : Z) : Z := if large_i (e / 2) then p (other e) else p e.
Definition i' (t : Z) : Z := if large_i (subset mode part t) then 2 ^ IB mode - 1 - i t else i t.
Definition j' (t : Z) : Z := if large_j (subset mode part t) then 2 ^ IB2 mode - 1 - j t else j t.
Lemma other_range e : 0 <= e < 2 * NS mode -> 0 <= other e < 2 * NS mode. Proof. intros H. unfold other. clear - H. Z.to_euclidean_division_equations; lia. Qed.
Lemma swapped_ends : bc7_ends mode v' p'.
Proof.
  destruct He as (V & V3 & P & SH). split; [|split; [|split]].
  - intros c e Hc Hee. unfold v'. destruct (large c (e / 2)); apply V; try assumption. apply other_range, Hee.
  - intros e Hee. unfold v'. destruct (large 3 (e / 2)); apply V3; try assumption. apply other_range, Hee.
  - intros e Hee. unfold p'. destruct (large_i (e / 2)); apply P; try assumption. apply other_range, Hee.
  - intros S1 s Hs. unfold p', other. replace ((2 * s) / 2) with s by (clear; Z.to_euclidean_division_equations; lia). replace ((2 * s + 1) / 2) with s by (clear; Z.to_euclidean_division_equations; lia).
    replace (2 * s + 1 - 2 * ((2 * s) mod 2)) with (2 * s + 1) by (clear; Z.to_euclidean_division_equations; lia). replace (2 * s + 1 + 1 - 2 * ((2 * s + 1) mod 2)) with (2 * s) by (clear; Z.to_euclidean_division_equations; lia).
    destruct (large_i s); [symmetry|]; apply SH; assumption.
Qed.
Lemma anchored n (k : Z -> Z) (big : Z -> bool) t : 1 <= n -> 0 <= k t < 2 ^ n -> (forall s, big s = (2 ^ (n - 1) <=? k (anchor mode part s))) ->
  0 <= (if big (subset mode part t) then 2 ^ n - 1 - k t else k t) < 2 ^ (n - less mode part t).
Proof.
  intros Hn Hk HB. assert (2 ^ n = 2 * 2 ^ (n - 1)) as E by (replace n with (1 + (n - 1)) at 1 by ring; rewrite Z.pow_add_r by lia; reflexivity).
  unfold less. destruct (is_anchor mode part t) eqn:A.
  - unfold is_anchor in A. apply Z.eqb_eq in A. rewrite HB, <- A. destruct (Z.leb_spec (2 ^ (n - 1)) (k t)); lia.
  - rewrite Z.sub_0_r. destruct (big _); lia.
Qed.
Lemma swapped_i t : 0 <= t < 16 -> 0 <= i' t < 2 ^ (IB mode - less mode part t).
Proof. intros Ht. destruct (mode_sizes mode Hm) as (_ & _ & _ & _ & _ & _ & A & _). apply (anchored (IB mode) i large_i t); [lia|apply Hi, Ht|reflexivity]. Qed.
Lemma swapped_j t : IB2 mode <> 0 -> 0 <= t < 16 -> 0 <= j' t < 2 ^ (IB2 mode - less mode part t).
Proof. intros NZ Ht. destruct (mode_sizes mode Hm) as (_ & _ & _ & _ & _ & _ & _ & A & _). apply (anchored (IB2 mode) j large_j t); [lia|apply Hj, Ht|reflexivity]. Qed.
Lemma end_swapped c e : end_value mode v' p' c e = end_value mode v p c (if large c (e / 2) then other e else e).
Proof.
  destruct (mode_sizes mode Hm) as (_ & _ & _ & _ & _ & _ & _ & _ & A & B & _). unfold end_value. cbv zeta. destruct ((c =? 3) && (AB mode =? 0))%bool; [reflexivity|]. unfold v'.
  destruct ((EPB mode =? 1) || (SPB mode =? 1))%bool eqn:PB; [|destruct (large c (e / 2)); reflexivity].
  assert (IB2 mode = 0) as Z0. { apply orb_true_iff in PB. destruct PB as [PB|PB]; apply Z.eqb_eq in PB; lia. }
  unfold p', large. rewrite Z0. cbn [Z.eqb]. destruct (large_i (e / 2)); reflexivity.
Qed.
Lemma mixed_swapped c t : 0 <= t < 16 -> mixed mode part isel v' p' i' j' c t = mixed mode part isel v p i j c t.
Proof.
  intros Ht. destruct (mode_sizes mode Hm) as (_ & _ & _ & _ & _ & _ & A & B & _). unfold mixed. cbv zeta. set (s := subset mode part t). rewrite !end_swapped.
  replace (2 * s / 2) with s by (clear; Z.to_euclidean_division_equations; lia). replace ((2 * s + 1) / 2) with s by (clear; Z.to_euclidean_division_equations; lia).
  assert (other (2 * s) = 2 * s + 1) as O1 by (unfold other; clear; Z.to_euclidean_division_equations; lia). assert (other (2 * s + 1) = 2 * s) as O2 by (unfold other; clear; Z.to_euclidean_division_equations; lia). rewrite O1, O2.
  assert (chosen_weight mode isel i' j' c t = if large c s then 64 - chosen_weight mode isel i j c t else chosen_weight mode isel i j c t) as W.
  { assert (znth (weights (IB mode)) (i' t) = if large_i s then 64 - znth (weights (IB mode)) (i t) else znth (weights (IB mode)) (i t)) as W1.
    { unfold i'. fold s. destruct (large_i s); [apply weight_swap; [lia|apply Hi, Ht]|reflexivity]. }
    unfold chosen_weight, large. cbv zeta. rewrite W1. destruct (Z.eqb_spec (IB2 mode) 0) as [Z0|Z0].
    - destruct (eqb (c =? 3) (isel =? 1)); reflexivity.
    - destruct (eqb (c =? 3) (isel =? 1)); [reflexivity|]. unfold j'. fold s. destruct (large_j s); [apply weight_swap; [lia|apply Hj, Ht]|reflexivity]. }
  rewrite W. destruct (large c s); [rewrite lerp_swap; f_equal; ring|reflexivity].
Qed.
End Swapped.

Lemma bc7_stored f : bc7_pattern f -> exists b, bytes b /\ zlen b = 16 /\ forall t, 0 <= t < 16 -> bc7_texel b t = f t.
Proof.
  intros [Z0|(mode & part & rot & isel & v & p & i & j & Hm & Hpart & Hrot & Hisel & He & Hi & Hj & E)].
  - exists (repeat 0 16). split; [repeat constructor; unfold is_byte; lia|]. split; [reflexivity|]. intros t Ht. rewrite Z0 by exact Ht. reflexivity.
  - destruct (blk_stored mode part rot isel (v' mode part isel v i j) (p' mode part p i) (i' mode part i) (j' mode part j) Hm Hpart Hrot Hisel) as (b & B & L & T).
    + apply swapped_ends; assumption.
    + intros t Ht. apply swapped_i; assumption.
    + intros NZ t Ht. apply swapped_j; assumption.
    + exists b. split; [exact B|]. split; [exact L|]. intros t Ht. rewrite T, E by exact Ht. unfold turned_channels. rewrite !mixed_swapped by assumption. reflexivity.
Qed.
Lemma bc7_looks b : bytes b -> zlen b = 16 -> exists f, bc7_pattern f /\ forall t, 0 <= t < 16 -> bc7_texel b t = f t.
Proof.
  intros _ _. exists (bc7_texel b). split; [|reflexivity]. destruct (Z.eq_dec (bc7_mode b) 8) as [E8|N8]; [left; intros t _; unfold bc7_texel; rewrite E8; reflexivity|right].
  assert (0 <= bc7_mode b < 8) as Hm.
  { revert N8. unfold bc7_mode. destruct (filter (fun i => bits b i 1 =? 1) (zrange 0 8)) as [|k l] eqn:F; intros N; [lia|]. assert (In k (filter (fun i => bits b i 1 =? 1) (zrange 0 8))) as I by (rewrite F; left; reflexivity).
    apply filter_In in I. destruct I as [I _]. apply in_zrange in I. exact I. }
  set (mode := bc7_mode b) in *. destruct (mode_sizes mode Hm) as (S1 & S2 & S3 & S4 & S5 & S6 & S7 & S8 & S9 & S10 & _).
  exists mode, (bc7_part b), (bc7_rot b), (bc7_isel b), (fun c e => if c =? 3 then bits b (o_alpha mode + e * AB mode) (AB mode) else bits b (o_color mode + c * (2 * NS mode * CB mode) + e * CB mode) (CB mode)),
    (fun e => if EPB mode =? 1 then bits b (o_pbit mode + e) 1 else bits b (o_pbit mode + e / 2) 1), (texel_index b mode (bc7_part b) (o_index mode) (IB mode)), (fun t => if IB2 mode =? 0 then 0 else texel_index b mode (bc7_part b) (o_index2 mode) (IB2 mode) t).
  split; [exact Hm|]. split; [apply bits_range; fold mode; lia|]. split; [apply bits_range; fold mode; lia|]. split; [apply bits_range; fold mode; lia|].
  assert (forall o n t, 1 <= n -> 0 <= texel_index b mode (bc7_part b) o n t < 2 ^ n) as TI.
  { intros o n t Hn. unfold texel_index. pose proof (bits_range b (o + n * t - anchors_below mode (bc7_part b) t) (n - (if is_anchor mode (bc7_part b) t then 1 else 0)) ltac:(destruct (is_anchor _ _ _); lia)) as R.
    assert (2 ^ (n - (if is_anchor mode (bc7_part b) t then 1 else 0)) <= 2 ^ n) by (apply Z.pow_le_mono_r; destruct (is_anchor _ _ _); lia). lia. }
  split; [|split; [intros t _; apply TI; lia|split]].
  - split; [intros c e Hc _; rewrite (proj2 (Z.eqb_neq c 3)) by lia; apply bits_range; lia|]. split; [intros e _; cbn [Z.eqb Pos.eqb]; apply bits_range; lia|].
    split; [intros e _; destruct (EPB mode =? 1); apply (bits_range b _ 1); lia|]. intros P1 s _. assert (EPB mode = 0) as -> by lia. cbn [Z.eqb]. do 2 f_equal. clear. Z.to_euclidean_division_equations; lia.
  - intros t _. destruct (Z.eqb_spec (IB2 mode) 0) as [->|NZ]; [cbn; lia|apply TI; lia].
  - intros t Ht. unfold bc7_texel, turned_channels. fold mode. rewrite (proj2 (Z.eqb_neq mode 8)) by lia. cbv zeta.
    assert (forall c, bc7_channel b c t = mixed mode (bc7_part b) (bc7_isel b) (fun c e => if c =? 3 then bits b (o_alpha mode + e * AB mode) (AB mode) else bits b (o_color mode + c * (2 * NS mode * CB mode) + e * CB mode) (CB mode))
      (fun e => if EPB mode =? 1 then bits b (o_pbit mode + e) 1 else bits b (o_pbit mode + e / 2) 1) (texel_index b mode (bc7_part b) (o_index mode) (IB mode)) (fun t => if IB2 mode =? 0 then 0 else texel_index b mode (bc7_part b) (o_index2 mode) (IB2 mode) t) c t) as Q.
    { intros c. unfold bc7_channel, mixed. cbv zeta. fold mode. f_equal.
      - unfold channel_endpoint, end_value, endpoint. cbv zeta. destruct (c =? 3); cbn [andb]; [destruct (AB mode =? 0); [reflexivity|]|]; destruct (EPB mode =? 1); cbn [orb]; try reflexivity; destruct (SPB mode =? 1); reflexivity.
      - unfold channel_endpoint, end_value, endpoint. cbv zeta. destruct (c =? 3); cbn [andb]; [destruct (AB mode =? 0); [reflexivity|]|]; destruct (EPB mode =? 1); cbn [orb]; try reflexivity; destruct (SPB mode =? 1); reflexivity.
      - unfold alpha_weight, color_weight, chosen_weight, weight2, weight1. cbv zeta. fold mode. destruct (IB2 mode =? 0); destruct (c =? 3); destruct (bc7_isel b =? 1); reflexivity. }
    rewrite !Q. reflexivity.
Qed.
