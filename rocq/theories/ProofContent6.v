(** * Proofs about the pictures BC6H decoding can show. *)
From Verif Require Import Base BaseLemmas BitLemmas ModelColor SpecImage SpecBits SpecBptc SpecBc SpecF16 SpecBc6 ModelBc6 ProofBits SpecCut ProofCut SpecEncode ProofEncode ProofEncodeSolid SpecContent ProofContent ProofContent7 SpecContentBc6 ProofBc6 ProofNoErr PropErrors ProofContentBc6 SpecContent6.

Definition fields (V : Z -> Z) (l : list (Z * Z * Z)) : list (nat * Z) := map (fun '(k, lo, n) => ent n (V k / 2 ^ lo mod 2 ^ n)) l.
Definition total (l : list (Z * Z * Z)) : Z := fold_right (fun '(_, _, n) s => n + s) 0 l.
Definition sound (l : list (Z * Z * Z)) : Prop := Forall (fun '(_, lo, n) => 0 <= lo /\ 0 <= n) l.
Lemma fields_wid V l : sound l -> wid (fields V l) = total l.
Proof. induction l as [|[[k lo] n] l IH]; intros H; [reflexivity|]. inversion H as [|? ? H1 H2]; subst. cbn [fields map total fold_right]. rewrite wid_cons by lia. fold (fields V l). rewrite IH by exact H2. reflexivity. Qed.
Lemma fields_pack V l : sound l -> packable (fields V l).
Proof.
  induction l as [|[[k lo] n] l IH]; intros H; [apply Forall_nil|]. inversion H as [|? ? H1 H2]; subst. apply Forall_cons; [|apply IH, H2].
  unfold ent. cbn [fst snd]. rewrite Z2Nat.id by lia. apply Z.mod_pos_bound. apply Z.pow_pos_nonneg; lia.
Qed.
(** What the fields of a component give. *)
Fixpoint joined (V : Z -> Z) (k : Z) (l : list (Z * Z * Z)) : Z :=
  match l with [] => 0 | (k', lo, n) :: l' => Z.lor (if k' =? k then (V k' / 2 ^ lo mod 2 ^ n) * 2 ^ lo else 0) (joined V k l') end.
Lemma gather_fields blk V k l : forall l1 l2, sound l -> (forall o n, bits blk o n = pack (l1 ++ fields V l ++ l2) / 2 ^ o mod 2 ^ n) -> packable (l1 ++ fields V l ++ l2) ->
  gather blk k l (wid l1) = joined V k l.
Proof.
  induction l as [|[[k' lo] n] l IH]; intros l1 l2 HS HB HP; [reflexivity|]. inversion HS as [|? ? H1 H2]; subst. cbn [gather joined]. cbn [fields map app] in *. fold (fields V l) in *. f_equal.
  - destruct (k' =? k); [|reflexivity]. rewrite HB. rewrite at_ent by (try exact HP; lia). reflexivity.
  - specialize (IH (l1 ++ [ent n (V k' / 2 ^ lo mod 2 ^ n)]) l2 H2). rewrite wid_app, wid_cons in IH by lia. replace (wid l1 + (n + wid [])) with (wid l1 + n) in IH by (unfold wid; cbn [width]; lia).
    rewrite <- !app_assoc in IH. cbn [app] in IH. apply IH; assumption.
Qed.
Definition covers (k j : Z) (l : list (Z * Z * Z)) : bool := existsb (fun '(k', lo, n) => (k' =? k) && (lo <=? j) && (j <? lo + n)) l.
Lemma field_bit v lo n j : 0 <= v -> 0 <= lo -> 0 <= n -> 0 <= j -> Z.testbit (v / 2 ^ lo mod 2 ^ n * 2 ^ lo) j = ((lo <=? j) && (j <? lo + n) && Z.testbit v j)%bool.
Proof.
  intros Hv Hl Hn Hj. rewrite <- Z.shiftl_mul_pow2 by lia. rewrite Z.shiftl_spec by lia. destruct (Z.leb_spec lo j) as [A|A]; cbn [andb]; [|apply Z.testbit_neg_r; lia].
  destruct (Z.ltb_spec j (lo + n)) as [B|B]; cbn [andb].
  - rewrite Z.mod_pow2_bits_low by lia. rewrite Z.div_pow2_bits by lia. f_equal. lia.
  - apply Z.mod_pow2_bits_high. lia.
Qed.
Lemma joined_bit V k l j : sound l -> 0 <= V k -> 0 <= j -> Z.testbit (joined V k l) j = (covers k j l && Z.testbit (V k) j)%bool.
Proof.
  intros HS HV Hj. induction l as [|[[k' lo] n] l IH]; [cbn [joined covers existsb andb]; apply Z.testbit_0_l|]. inversion HS as [|? ? H1 H2]; subst. cbn [joined]. unfold covers. cbn [existsb]. fold (covers k j l). rewrite Z.lor_spec, IH by exact H2.
  destruct (Z.eqb_spec k' k) as [->|N]; cbn [andb]; [|rewrite Z.testbit_0_l; reflexivity]. rewrite field_bit by lia. destruct (lo <=? j), (j <? lo + n), (covers k j l), (Z.testbit (V k) j); reflexivity.
Qed.
Lemma joined_whole V k l w : sound l -> 0 <= w -> 0 <= V k < 2 ^ w -> (forall j, 0 <= j < w -> covers k j l = true) -> joined V k l = V k.
Proof.
  intros HS Hw HV HC. apply Z.bits_inj'. intros j Hj. rewrite joined_bit by (try assumption; lia). destruct (Z_lt_ge_dec j w) as [A|A]; [rewrite HC by lia; reflexivity|].
  assert (Z.testbit (V k) j = false) as ->; [|apply andb_false_r]. rewrite <- (Z.mod_small (V k) (2 ^ w)) by exact HV. apply Z.mod_pow2_bits_high. lia.
Qed.

(** ** The layouts *)
Definition layout_ok (mode : Z) : bool :=
  forallb (fun '(_, lo, n) => (0 <=? lo) && (0 <=? n)) (layout mode) && (mode_len mode + total (layout mode) =? if subsets6 mode =? 2 then 77 else 65) &&
  (0 <? EB mode) && (EB mode <=? 16) && ((subsets6 mode =? 1) || (subsets6 mode =? 2)) && (if mode <? 2 then 0 <=? mode else (2 <=? mode mod 4) && (mode <? 32)) &&
  forallb (fun c => forallb (fun e => (0 <? number_bits mode c e) && (number_bits mode c e <=? 16) && forallb (fun j => covers (component c e) j (layout mode)) (zrange 0 (number_bits mode c e)) && negb (existsb (fun '(k, lo, n) => (k =? component c e) && (number_bits mode c e <? lo + n)) (layout mode))) (zrange 0 (2 * subsets6 mode))) [0; 1; 2].
Lemma layouts : forallb layout_ok bc6_modes = true.
Proof. vm_compute. reflexivity. Qed.
Lemma layout_sound mode : In mode bc6_modes -> sound (layout mode) /\ mode_len mode + total (layout mode) = (if subsets6 mode =? 2 then 77 else 65) /\ (subsets6 mode = 1 \/ subsets6 mode = 2) /\ (if mode <? 2 then 0 <= mode else 2 <= mode mod 4 /\ mode < 32) /\
  (forall c e, 0 <= c < 3 -> 0 <= e < 2 * subsets6 mode -> 0 < number_bits mode c e /\ (forall j, 0 <= j < number_bits mode c e -> covers (component c e) j (layout mode) = true) /\
     Forall (fun '(k, lo, n) => k = component c e -> lo + n <= number_bits mode c e) (layout mode)).
Proof.
  intros H. pose proof (proj1 (forallb_forall _ _) layouts mode H) as A. unfold layout_ok in A. repeat (apply andb_prop in A; destruct A as [A ?]). rename H0 into C, H1 into M, H2 into S.
  split; [|split; [|split; [|split]]].
  - apply Forall_forall. intros [[k lo] n] I. pose proof (proj1 (forallb_forall _ _) A _ I) as Q. cbv beta iota in Q. apply andb_prop in Q. destruct Q as [Q1 Q2]. apply Z.leb_le in Q1, Q2. split; assumption.
  - match goal with Q : (mode_len mode + _ =? _) = true |- _ => apply Z.eqb_eq in Q; exact Q end.
  - apply orb_prop in S. destruct S as [S|S]; apply Z.eqb_eq in S; auto.
  - destruct (mode <? 2); [apply Z.leb_le in M; exact M|]. apply andb_prop in M. destruct M as [M1 M2]. apply Z.leb_le in M1. apply Z.ltb_lt in M2. split; assumption.
  - intros c e Hc He. assert (In c [0; 1; 2]) as Ic by (assert (c = 0 \/ c = 1 \/ c = 2) as [-> | [-> | ->]] by lia; cbn; tauto).
    pose proof (proj1 (forallb_forall _ _) C c Ic) as Q. cbv beta in Q. pose proof (proj1 (forallb_forall _ _) Q e (proj2 (in_zrange _ _ _) He)) as R. cbv beta in R.
    apply andb_prop in R. destruct R as [R R3]. apply andb_prop in R. destruct R as [R R2]. apply andb_prop in R. destruct R as [R0 R1].
    split; [apply Z.ltb_lt, R0|]. split; [intros j Hj; exact (proj1 (forallb_forall _ _) R2 j (proj2 (in_zrange _ _ _) Hj))|].
    apply negb_true_iff in R3. apply Forall_forall. intros [[k lo] n] I E. destruct (Z_le_gt_dec (lo + n) (number_bits mode c e)) as [|G]; [assumption|exfalso].
    rewrite <- not_true_iff_false in R3. apply R3. apply existsb_exists. exists (k, lo, n). split; [exact I|]. rewrite (proj2 (Z.eqb_eq _ _) E), (proj2 (Z.ltb_lt _ _)) by lia. reflexivity.
Qed.
Lemma part_sweep : all_below 32 (fun part => (zlen (filter (fun t => (t =? 0) || (t =? znth anchor2 part)) (zrange 0 16)) =? 2) && all_below 16 (fun t => let s := znth (nth (Z.to_nat part) partition2 []) t in (0 <=? s) && (s <? 2))) = true.
Proof. vm_compute. reflexivity. Qed.
Definition firsts (mode part t : Z) : Z := zlen (filter (first_of mode part) (zrange 0 t)).
Lemma part_facts mode part : In mode bc6_modes -> 0 <= part < 32 -> subsets6 mode <= firsts mode part 16 /\ forall t, 0 <= t < 16 -> 0 <= subset_of mode part t < subsets6 mode.
Proof.
  intros Hm Hp. pose proof (all_below_spec 32 _ part_sweep part Hp) as A. cbv beta in A. apply andb_prop in A. destruct A as [A B]. apply Z.eqb_eq in A.
  destruct (layout_sound mode Hm) as (_ & _ & S & _). unfold firsts, first_of, subset_of. destruct S as [S|S]; rewrite S; cbn [Z.eqb Pos.eqb andb].
  - split; [|intros; lia]. rewrite (filter_ext _ (fun t => t =? 0)) by (intros; apply orb_false_r). vm_compute. discriminate.
  - split; [rewrite A; lia|]. intros t Ht. pose proof (all_below_spec 16 _ B t Ht) as C. cbv beta zeta in C. apply andb_prop in C. destruct C as [C D]. apply Z.leb_le in C. apply Z.ltb_lt in D. lia.
Qed.
Lemma firsts_wid mode part n g k : 1 <= n -> 0 <= k -> wid (run k (fun t => n - if first_of mode part t then 1 else 0) g) = n * k - firsts mode part k.
Proof.
  intros Hn Hk. pattern k. apply natlike_ind; [unfold firsts; cbn; lia| |exact Hk]. intros x Hx IH. unfold Z.succ.
  rewrite run_snoc by (try lia; destruct (first_of mode part x); lia). rewrite IH. unfold firsts. rewrite zrange_snoc by lia. rewrite filter_app, zlen_app. cbn [filter].
  destruct (first_of mode part x); unfold zlen; cbn [length]; lia.
Qed.

(** ** A block with given contents *)
Section Made6.
Context (mode part : Z) (v : Z -> Z -> Z) (i : Z -> Z).
Context (Hm : In mode bc6_modes) (Hpart : 0 <= part < 32).
Context (Hv : forall c e, 0 <= c < 3 -> 0 <= e < 2 * subsets6 mode -> 0 <= v c e < 2 ^ number_bits mode c e).
Context (Hi : forall t, 0 <= t < 16 -> 0 <= i t < 2 ^ (weight_bits mode - if first_of mode part t then 1 else 0)).
Let V (k : Z) := v (k mod 3) (k / 3).
Let ns (t : Z) := weight_bits mode - if first_of mode part t then 1 else 0.
Let tail := (if subsets6 mode =? 2 then [ent 5 part] else []) ++ run 16 ns i.
Let L := [ent (mode_len mode) mode] ++ fields V (layout mode) ++ tail.
Let made := to_bytes 16 (pack L).
Lemma len_bound : 2 <= mode_len mode <= 5. Proof. unfold mode_len. destruct (mode <? 2); lia. Qed.
Lemma weight_bound : 3 <= weight_bits mode <= 4. Proof. unfold weight_bits. destruct (subsets6 mode =? 2); lia. Qed.
Lemma made_packs : packable L.
Proof.
  destruct (layout_sound mode Hm) as (S & _ & _ & M & _). pose proof weight_bound as W. unfold L, tail. repeat (apply Forall_app; split).
  - apply Forall_cons; [|apply Forall_nil]. unfold ent. cbn [fst snd]. rewrite Z2Nat.id by (pose proof len_bound; lia). unfold mode_len.
    destruct (Z.ltb_spec mode 2); [cbn; lia|change (2 ^ 5) with 32; lia].
  - apply fields_pack, S.
  - destruct (subsets6 mode =? 2); [|apply Forall_nil]. apply Forall_cons; [|apply Forall_nil]. unfold ent. cbn [fst snd]. change (2 ^ Z.of_nat (Z.to_nat 5)) with 32. exact Hpart.
  - apply run_packs. intros k Hk. split; [unfold ns; destruct (first_of mode part k); lia|apply Hi, Hk].
Qed.
Lemma head_width : wid ([ent (mode_len mode) mode] ++ fields V (layout mode)) = if subsets6 mode =? 2 then 77 else 65.
Proof. destruct (layout_sound mode Hm) as (S & T & _). rewrite wid_app, wid_cons, fields_wid by (try exact S; pose proof len_bound; lia). rewrite <- T. unfold wid. cbn [width]. lia. Qed.
Lemma made_wid : wid L <= 128.
Proof.
  unfold L, tail. rewrite app_assoc, wid_app, head_width, wid_app. unfold ns. rewrite firsts_wid by (pose proof weight_bound; lia). destruct (part_facts mode part Hm Hpart) as (F & _). unfold weight_bits.
  destruct (layout_sound mode Hm) as (_ & _ & S & _). destruct S as [S|S]; rewrite S in *; cbn [Z.eqb Pos.eqb]; [unfold wid; cbn [width]; lia|]. rewrite wid_cons by lia. unfold wid. cbn [width]. lia.
Qed.
Lemma made_at o n : bits made o n = pack L / 2 ^ o mod 2 ^ n.
Proof.
  unfold bits, made. rewrite le_to_bytes; [reflexivity|]. pose proof (pack_range L made_packs) as R. pose proof made_wid as W. unfold wid in W. change (256 ^ Z.of_nat 16) with (2 ^ 128).
  assert (2 ^ Z.of_nat (width L) <= 2 ^ 128) by (apply Z.pow_le_mono_r; lia). lia.
Qed.
Lemma made_mode : bc6_mode made = mode.
Proof.
  destruct (layout_sound mode Hm) as (_ & _ & _ & M & _). pose proof made_packs as P. pose proof (at_ent [] (mode_len mode) mode (fields V (layout mode) ++ tail) ltac:(pose proof len_bound; lia) P) as E.
  change (wid []) with 0 in E. change ([] ++ ent (mode_len mode) mode :: fields V (layout mode) ++ tail) with L in E. unfold bc6_mode. rewrite !made_at. unfold mode_len in E.
  destruct (Z.ltb_spec mode 2) as [A|A].
  - rewrite E. rewrite (proj2 (Z.ltb_lt mode 2) A). reflexivity.
  - rewrite E. rewrite Z.pow_0_r, Z.div_1_r in *. assert (pack L mod 2 ^ 2 = mode mod 4) as ->.
    { rewrite <- E. change (2 ^ 2) with 4. change (2 ^ 5) with 32. clear. Z.to_euclidean_division_equations; lia. }
    rewrite (proj2 (Z.ltb_ge (mode mod 4) 2)) by lia. reflexivity.
Qed.
Lemma made_stored c e : 0 <= c < 3 -> 0 <= e < 2 * subsets6 mode -> stored made c e = v c e.
Proof.
  intros Hc He. destruct (layout_sound mode Hm) as (S & _ & _ & _ & C). destruct (C c e Hc He) as (N & Cov & _). unfold stored. rewrite made_mode.
  assert (mode_len mode = wid [ent (mode_len mode) mode]) as -> by (rewrite wid_cons by (pose proof len_bound; lia); unfold wid; cbn [width]; lia).
  rewrite (gather_fields made V (component c e) (layout mode) [ent (mode_len mode) mode] tail S made_at made_packs).
  assert (V (component c e) = v c e) as EV. { unfold V, component. f_equal; [symmetry; apply Z.mod_unique with e; lia|symmetry; apply Z.div_unique with c; lia]. }
  rewrite <- EV. apply (joined_whole V _ _ (number_bits mode c e) S); [lia|rewrite EV; apply Hv; assumption|exact Cov].
Qed.
Lemma made_part : subsets6 mode = 2 -> part6 made = part.
Proof.
  intros S. unfold part6. rewrite made_mode, S. cbn [Z.eqb Pos.eqb]. rewrite made_at. pose proof head_width as H. rewrite S in H. cbn [Z.eqb Pos.eqb] in H. rewrite <- H.
  assert (L = ([ent (mode_len mode) mode] ++ fields V (layout mode)) ++ ent 5 part :: run 16 ns i) as EL by (unfold L, tail; rewrite S, <- app_assoc; reflexivity).
  pose proof made_packs as P. rewrite EL in *. apply at_ent; [lia|exact P].
Qed.
Lemma made_subset t : subset6 made t = subset_of mode part t.
Proof. unfold subset6, subset_of. rewrite made_mode. destruct (Z.eq_dec (subsets6 mode) 2) as [S|S]; [rewrite made_part by exact S|rewrite (proj2 (Z.eqb_neq _ _) S)]; reflexivity. Qed.
Lemma made_first t : anchor6 made t = first_of mode part t.
Proof. unfold anchor6, first_of. rewrite made_mode. destruct (Z.eq_dec (subsets6 mode) 2) as [S|S]; [rewrite made_part by exact S|rewrite (proj2 (Z.eqb_neq _ _) S)]; reflexivity. Qed.
Lemma made_index t : 0 <= t < 16 -> index6 made t = i t.
Proof.
  intros Ht. unfold index6. rewrite made_mode, made_first. unfold anchors_below6. rewrite (filter_ext _ _ made_first). fold (firsts mode part t). rewrite made_at.
  pose proof made_packs as P. pose proof head_width as HW. pose proof weight_bound as W.
  set (pre := ([ent (mode_len mode) mode] ++ fields V (layout mode)) ++ (if subsets6 mode =? 2 then [ent 5 part] else [])).
  assert (L = pre ++ run 16 ns i ++ []) as EL by (unfold L, tail, pre; rewrite app_nil_r, <- !app_assoc; reflexivity). rewrite EL in *.
  pose proof (run_at pre 16 ns i [] t Ht ltac:(intros k Hk; unfold ns; destruct (first_of mode part k); lia) P) as E. unfold ns in E at 2 3. rewrite firsts_wid in E by lia.
  assert (wid pre = if subsets6 mode =? 2 then 82 else 65) as WP. { unfold pre. rewrite wid_app, HW. destruct (subsets6 mode =? 2); [rewrite wid_cons by lia|]; unfold wid; cbn [width]; lia. }
  rewrite WP in E. fold (weight_bits mode). rewrite <- E. f_equal. f_equal. f_equal. unfold weight_bits. destruct (subsets6 mode =? 2); lia.
Qed.
Lemma made_end (sgn : bool) c e : 0 <= c < 3 -> 0 <= e < 2 * subsets6 mode -> bc6_end sgn made c e = end6 sgn mode v c e.
Proof. intros Hc He. unfold bc6_end, end6, first_end. rewrite made_mode, !made_stored by (assumption || lia). reflexivity. Qed.
Lemma made_block : exists b, bytes b /\ zlen b = 16 /\ bc6_mode b = mode /\ (forall t, subset6 b t = subset_of mode part t) /\ (forall t, 0 <= t < 16 -> index6 b t = i t) /\
  forall sgn c e, 0 <= c < 3 -> 0 <= e < 2 * subsets6 mode -> bc6_end sgn b c e = end6 sgn mode v c e.
Proof.
  exists made. split; [apply to_bytes_bytes|]. split; [unfold zlen, made; rewrite to_bytes_len; reflexivity|]. split; [exact made_mode|]. split; [exact made_subset|]. split; [exact made_index|exact made_end].
Qed.
End Made6.
Lemma valid_in mode : bc6_valid mode = true <-> In mode bc6_modes.
Proof. unfold bc6_valid. rewrite existsb_exists. split; [intros (x & I & E); apply Z.eqb_eq in E; subst; exact I|intros I; exists mode; split; [exact I|apply Z.eqb_refl]]. Qed.
(** The texels of a block in terms of what is stored in it. *)
Lemma texel_of_contents (sgn : bool) b mode part v i t : bc6_mode b = mode -> In mode bc6_modes -> subset6 b t = subset_of mode part t -> index6 b t = i t -> 0 <= subset_of mode part t < subsets6 mode ->
  (forall c e, 0 <= c < 3 -> 0 <= e < 2 * subsets6 mode -> bc6_end sgn b c e = end6 sgn mode v c e) ->
  bc6_code sgn b t = rgba (channel6 sgn mode part v i 0 t) (channel6 sgn mode part v i 1 t) (channel6 sgn mode part v i 2 t) 255.
Proof.
  intros M I S X R E.
  assert (forall c, 0 <= c < 3 -> half_byte (if sgn then bc6s_code_half b c t else bc6_half false b (fun c e => if (bc6_mode b =? 15) && (e =? 1) then 0 else unq_unsigned_code (EB (bc6_mode b)) (bc6_end false b c e)) c t) = channel6 sgn mode part v i c t) as C.
  { intros c Hc. unfold channel6, bc6s_code_half, bc6_half, level6, weight6, weight_bits. rewrite M, S, X. cbv zeta. destruct sgn; rewrite !E by lia; reflexivity. }
  unfold bc6_code. rewrite <- !C by lia. destruct sgn; unfold bc6s_code_texel, bc6u_code_texel, bc6_texel_of; rewrite M, (proj2 (valid_in mode) I); reflexivity.
Qed.
Lemma full_stored m (sgn : bool) f : bc6_full m sgn f -> exists b, bytes b /\ zlen b = 16 /\ bc6_good m b /\ forall t, 0 <= t < 16 -> bc6_code sgn b t = f t.
Proof.
  intros [F|(mode & part & v & i & Hm & H15 & Hp & Hv & Hi & F)].
  - exists (to_bytes 16 19). split; [apply to_bytes_bytes|]. split; [reflexivity|]. split; [right; vm_compute; discriminate|]. intros t Ht. rewrite F by exact Ht. unfold bc6_code.
    assert (bc6_valid (bc6_mode (to_bytes 16 19)) = false) as N by (vm_compute; reflexivity). destruct sgn; unfold bc6s_code_texel, bc6u_code_texel, bc6_texel_of; rewrite N; reflexivity.
  - destruct (made_block mode part v i Hm Hp Hv Hi) as (b & B & Lb & M & S & X & E). exists b. split; [exact B|]. split; [exact Lb|]. split; [unfold bc6_good; rewrite M; exact H15|].
    intros t Ht. rewrite F by exact Ht. apply texel_of_contents; [exact M|exact Hm|apply S|apply X, Ht|apply (part_facts mode part Hm Hp); exact Ht|intros; apply E; assumption].
Qed.

(** ** Back *)
Lemma gather_high b k w l : forall p, sound l -> 0 <= w -> Forall (fun '(k', lo, n) => k' = k -> lo + n <= w) l -> 0 <= gather b k l p < 2 ^ w.
Proof.
  induction l as [|[[k' lo] n] l IH]; intros p HS Hw HF; cbn [gather]; [split; [lia|apply Z.pow_pos_nonneg; lia]|]. inversion HS as [|? ? S1 S2]; subst. inversion HF as [|? ? F1 F2]; subst.
  specialize (IH (p + n) S2 Hw F2). apply lor_bound; [exact Hw| |exact IH]. destruct (Z.eqb_spec k' k) as [E|_]; [|split; [lia|apply Z.pow_pos_nonneg; lia]].
  specialize (F1 E). pose proof (bits_range b p n ltac:(lia)) as R. assert (0 < 2 ^ lo) by (apply Z.pow_pos_nonneg; lia). split; [apply Z.mul_nonneg_nonneg; lia|].
  apply Z.lt_le_trans with (2 ^ n * 2 ^ lo); [apply Z.mul_lt_mono_pos_r; lia|]. rewrite <- Z.pow_add_r by lia. apply Z.pow_le_mono_r; lia.
Qed.
Lemma full_looks m (sgn : bool) b : bc6_good m b -> exists f, bc6_full m sgn f /\ forall t, 0 <= t < 16 -> bc6_code sgn b t = f t.
Proof.
  intros G. exists (bc6_code sgn b). split; [|reflexivity]. destruct (bc6_valid (bc6_mode b)) eqn:Vd.
  - right. apply valid_in in Vd. exists (bc6_mode b), (part6 b), (stored b), (index6 b). split; [exact Vd|]. split; [exact G|]. assert (0 <= part6 b < 32) as Hp.
    { unfold part6. destruct (subsets6 (bc6_mode b) =? 2); [|lia]. pose proof (bits_range b 77 5 ltac:(lia)) as R. change (2 ^ 5) with 32 in R. exact R. }
    split; [exact Hp|]. split; [|split].
    + intros c e Hc He. destruct (layout_sound (bc6_mode b) Vd) as (S & _ & _ & _ & C). destruct (C c e Hc He) as (N & _ & F). apply gather_high; [exact S|lia|exact F].
    + intros t Ht. apply bits_range. pose proof (weight_bound (bc6_mode b) 0 (stored b) (index6 b)). destruct (first_of (bc6_mode b) (part6 b) t); lia.
    + intros t Ht. apply texel_of_contents; [reflexivity|exact Vd|reflexivity|reflexivity|apply (part_facts _ _ Vd Hp); exact Ht|reflexivity].
  - left. intros t Ht. unfold bc6_code. destruct sgn; unfold bc6s_code_texel, bc6u_code_texel, bc6_texel_of; rewrite Vd; reflexivity.
Qed.

(** ** Pictures *)
Lemma bc6_decodes_good m (sgn : bool) : decodes_good 4 4 16 (bc6_good m) (bc6_code sgn) (fun data w h image => decode_bc6 m data w h image sgn).
Proof.
  intros data w h image S. destruct (bc6_images m sgn data w h image S) as (D1 & D2 & D3). split; [intros Q; rewrite D1 by exact Q; eauto|]. split; [intros Q R; rewrite D2 by assumption; eauto|exact D3].
Qed.
Lemma done_good m (sgn : bool) data w h image image' : sized 4 4 16 data w h image -> decode_bc6 m data w h image sgn = Ok (Done, image') -> all_blocks 4 4 16 (bc6_good m) data w h.
Proof.
  intros S E k Hk. destruct m; [|left; reflexivity]. right. intros M15. destruct (bc6_images Checked sgn data w h image S) as (D1 & D2 & _).
  destruct (Z.ltb_spec (zlen data) (blocks w 4 * blocks h 4 * 16)) as [Q|Q]; [rewrite (D1 Q) in E; discriminate|].
  destruct (Z.ltb_spec (zlen image) (w * h)) as [R|R]; [rewrite (D2 Q R) in E; discriminate|].
  rewrite (bc6_panics sgn data w h image k) in E; [discriminate|intros s; apply ne_blocks; intros; apply ne_bc6|exact S|exact Q|exact R|exact Hk|exact M15].
Qed.
Lemma bc6_exactly m (sgn : bool) : composes_exactly 16 (bc6_full m sgn) (fun data w h image => decode_bc6 m data w h image sgn).
Proof.
  intros w h pic Hw Hh HZ HA. split.
  - intros HS. apply (store 4 4 16 (bc6_good m) (bc6_code sgn) _ w h pic (bc6_decodes_good m sgn) ltac:(lia) ltac:(lia) ltac:(lia) Hw Hh HZ HA).
    intros bx by_ Hx Hy. destruct (HS bx by_) as (f & Hf & Hc); try lia; try (apply block_pos; lia).
    destruct (full_stored m sgn f Hf) as (b & B & L & G & T). exists b. split; [exact B|]. split; [exact L|]. split; [exact G|]. intros x y Hx' Hy' Ex Ey.
    rewrite T by (clear; Z.to_euclidean_division_equations; lia).
    rewrite Hc by (assumption || lia || (clear - Ex Ey; Z.to_euclidean_division_equations; lia)). f_equal. clear - Ex Ey; Z.to_euclidean_division_equations; lia.
  - intros data image image' B H4 E S bx by_ Hx Hy Px Py.
    assert (sized 4 4 16 data w h image) as HS by (unfold sized; repeat split; try assumption; lia). pose proof (done_good m sgn data w h image image' HS E) as G.
    destruct (decodes_done 4 4 16 (bc6_good m) (bc6_code sgn) _ data w h image image' (bc6_decodes_good m sgn) HS G E) as (R & RI & _ & PP & _).
    pose proof (blocks_above w 4 (4 * bx) ltac:(lia) ltac:(lia)) as X1. pose proof (blocks_above h 4 (4 * by_) ltac:(lia) ltac:(lia)) as Y1.
    rewrite (Z.mul_comm 4 bx), Z.div_mul in X1 by lia. rewrite (Z.mul_comm 4 by_), Z.div_mul in Y1 by lia.
    pose proof (below_product by_ bx (blocks h 4) (blocks w 4) Y1 X1) as K.
    destruct (full_looks m sgn (block_bytes 16 (by_ * blocks w 4 + bx) data)) as (f & Hf & Hc); [apply G; rewrite (Z.mul_comm (blocks w 4)); assert (0 <= by_ * blocks w 4) by (apply Z.mul_nonneg_nonneg; lia); lia|].
    exists f. split; [exact Hf|]. intros x y Ix Iy Lx Ly. rewrite <- S by lia. rewrite PP by lia.
    replace (y / 4) with by_ by (clear - Iy; Z.to_euclidean_division_equations; lia).
    replace (x / 4) with bx by (clear - Ix; Z.to_euclidean_division_equations; lia). rewrite Hc by (clear; Z.to_euclidean_division_equations; lia).
    f_equal. clear - Ix Iy; Z.to_euclidean_division_equations; lia.
Qed.
