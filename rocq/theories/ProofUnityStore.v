(** * The stored palettes and levels of Unity crunch files read as what was stored. *)
From Verif Require Import Base BaseLemmas ModelCrn SpecCrn SpecCrnHeader SpecCrnLevel SpecCrnFile SpecCrnStore SpecUnity SpecUnityFile SpecUnityStore
  ProofCrnBits ProofCrnHeader ProofCrnGrid ProofCrnLevel ProofCrnFile ProofCrnStore ProofCrnStoreFile ProofUnityGrid ProofUnityPalette.

(** ** Palettes *)
Section Xor.
Context (r : Z) (Hr : 0 < r).
Notation b := (2 ^ r).
Context (x : Z -> Z -> Z).
Notation d k i := (Z.lxor (x i k mod b) (before (fun i' => x i' k mod b) i)).
Lemma base_pos : 0 < b.
Proof. apply Z.pow_pos_nonneg; lia. Qed.
Lemma xor_range k i : 0 <= d k i < b.
Proof.
  pose proof base_pos. apply lxor_small; [lia|apply Z.mod_pos_bound; lia|]. unfold before. destruct (_ =? _); [lia|apply Z.mod_pos_bound; lia].
Qed.
Lemma xor_step_range i j : 0 <= xor_step b x i j < b * b.
Proof. unfold xor_step. cbv zeta. pose proof (xor_range (2 * j) i). pose proof (xor_range (2 * j + 1) i). nia. Qed.
Lemma xor_step_part i k : xor_step b x i (k / 2) / b ^ (k mod 2) mod b = d k i.
Proof.
  unfold xor_step. cbv zeta. pose proof base_pos as Hb. pose proof (Z.div_mod k 2 ltac:(lia)) as E. pose proof (Z.mod_pos_bound k 2 ltac:(lia)) as Hk.
  assert (k mod 2 = 0 \/ k mod 2 = 1) as [G|G] by lia; rewrite G in *.
  - replace (2 * (k / 2)) with k by lia. rewrite Z.pow_0_r, Z.div_1_r. rewrite (Z.mul_comm b), Z.mod_add by lia. apply Z.mod_small. apply xor_range.
  - replace (2 * (k / 2) + 1) with k by lia. rewrite Z.pow_1_r. rewrite (Z.mul_comm b), Z.div_add by lia. rewrite Z.div_small by apply xor_range. apply Z.mod_small. apply xor_range.
Qed.
Lemma mixed_ext i g g' : (forall j, g j = g' j) -> mixed i g = mixed i g'.
Proof. intros G. unfold mixed. f_equal. apply map_ext. exact G. Qed.
Lemma mixed_steps i k : 0 <= i -> mixed i (fun i' => d k i') = x i k mod b.
Proof.
  intros Hi. pattern i. apply natlike_ind; [|intros n Hn IH; change (Z.succ n) with (n + 1)|exact Hi].
  - unfold mixed, before. change (zrange 0 (0 + 1)) with [0]. cbn [map fold_right]. change (0 =? 0) with true. cbv iota. rewrite !Z.lxor_0_r. reflexivity.
  - rewrite mixed_next by lia. replace (n + 1 - 1) with n by lia. rewrite IH. unfold before. destruct (Z.eqb_spec (n + 1) 0); [lia|]. replace (n + 1 - 1) with n by lia.
    rewrite (Z.lxor_comm (x (n + 1) k mod b)), <- Z.lxor_assoc, Z.lxor_nilpotent. apply Z.lxor_0_l.
Qed.
Lemma mixed_value_steps i k : 0 <= i -> mixed_value b (xor_step b x) i k = x i k mod b.
Proof. intros Hi. unfold mixed_value. rewrite (mixed_ext i _ (fun i' => d k i')) by (intros; apply xor_step_part). exact (mixed_steps i k Hi). Qed.
End Xor.

Section Palettes.
Context (f : Z) (Q : u_palettes) (OK : u_palettes_ok f Q).
Notation K := (u_stored_contents f Q).

Lemma four_digits g : digits 256 4 g = g 0 + g 1 * 256 + g 2 * 65536 + g 3 * 16777216.
Proof.
  unfold digits. change 4 with (0 + 1 + 1 + 1 + 1) at 1. rewrite !zsum_succ, zsum_0 by lia. change (0 + 1) with 1. change (1 + 1) with 2. change (2 + 1) with 3.
  change (256 ^ 0) with 1. change (256 ^ 1) with 256. change (256 ^ 2) with 65536. change (256 ^ 3) with 16777216. lia.
Qed.
Lemma stored_ce : u_color_ends f (k_color_ends K) (n_color_ends Q) = pal_ce f Q.
Proof.
  destruct OK as (H1 & H2 & H3 & H4 & C1 & _). unfold u_color_ends, pal_ce, u_stored_contents. cbn [k_color_ends]. destruct (is_etc f) eqn:EF.
  - unfold etc_ends. apply map_ext_in. intros i I. apply in_zrange in I. cbv zeta.
    assert (forall k, 0 <= k < 4 -> etc_component (fun i0 k0 => step_mod 32 (fun i' => v_color_ends Q i' k0) i0) i k = v_color_ends Q i k) as M.
    { intros k Hk. unfold etc_component. change (fun i' => step_mod ?b ?y i') with (step_mod b y). rewrite moved_steps by lia. apply Z.mod_small.
      specialize (C1 i k I Hk). unfold component_size in C1. rewrite EF in C1. destruct (k =? 3); lia. }
    destruct (has_halves f); rewrite !four_digits; cbn [Z.ltb Z.compare Pos.compare Pos.compare_cont].
    + rewrite !M by lia. reflexivity.
    + rewrite !M by lia. specialize (C1 i 3 I ltac:(lia)). unfold component_size in C1. rewrite EF in C1. change (3 =? 3) with true in C1. cbv iota in C1. rewrite (Z.mod_small (v_color_ends Q i 3)) by lia. reflexivity.
  - assert (has_halves f = false) as -> by (unfold is_etc, has_halves in *; destruct (10 <=? f) eqn:?; [|reflexivity]; cbn [andb] in *; lia).
    unfold color_ends. apply map_ext_in. intros i I. apply in_zrange in I. cbv zeta.
    assert (forall k, 0 <= k < 6 -> moved (if is_green k then 64 else 32) i (fun i' => step_mod (if is_green k then 64 else 32) (fun i'' => v_color_ends Q i'' k) i') = v_color_ends Q i k) as M.
    { intros k Hk. change (fun i' => step_mod ?b ?y i') with (step_mod b y). rewrite moved_steps by (destruct (is_green k); lia). apply Z.mod_small. specialize (C1 i k I Hk). unfold component_size in C1. rewrite EF in C1. exact C1. }
    rewrite !M by lia. reflexivity.
Qed.
Lemma stored_ae : alpha_ends (k_alpha_ends K) (n_alpha_ends Q) = pal_ae Q.
Proof.
  destruct OK as (H1 & H2 & H3 & H4 & _ & _ & C3 & _). unfold alpha_ends, pal_ae, u_stored_contents. cbn [k_alpha_ends]. apply map_ext_in. intros i I. apply in_zrange in I.
  change (fun i' => step_mod ?b ?y i') with (step_mod b y). rewrite !moved_steps by lia. rewrite !Z.mod_small by (apply C3; lia). reflexivity.
Qed.
(** The values of the selectors. *)
Lemma color_mix i k : 0 <= i < n_color_sels Q -> 0 <= k < 16 -> mixed_value 4 (k_color_sels K) i k = v_color_sels Q i k.
Proof.
  intros Hi Hk. destruct OK as (_ & _ & _ & _ & _ & C2 & _). unfold u_stored_contents. cbn [k_color_sels]. change 4 with (2 ^ 2). rewrite mixed_value_steps by lia. apply Z.mod_small. exact (C2 i k Hi Hk).
Qed.
Lemma alpha_mix i k : 0 <= i < n_alpha_sels Q -> 0 <= k < 16 -> mixed_value 8 (k_alpha_sels K) i k = v_alpha_sels Q i k.
Proof.
  intros Hi Hk. destruct OK as (_ & _ & _ & _ & _ & _ & _ & C4). unfold u_stored_contents. cbn [k_alpha_sels]. change 8 with (2 ^ 3). rewrite mixed_value_steps by lia. apply Z.mod_small. exact (C4 i k Hi Hk).
Qed.
Lemma turned_range p : 0 <= p < 16 -> 0 <= turned p < 16.
Proof. intros H. unfold turned. pose proof (Z.mod_pos_bound p 4 ltac:(lia)). pose proof (div_range p 4 4 ltac:(lia) ltac:(lia)). lia. Qed.
Lemma digits_ext b n g g' : (forall k, 0 <= k < n -> g k = g' k) -> digits b n g = digits b n g'.
Proof. intros H. unfold digits. apply zsum_ext. intros k Hk. rewrite H by lia. reflexivity. Qed.
Lemma color_word_ext g g' : (forall p, 0 <= p < 16 -> g p = g' p) -> etc_color_word g = etc_color_word g'.
Proof.
  intros H. unfold etc_color_word. cbv zeta. f_equal. match goal with |- (fun k => ?a / _ mod 256) = (fun k => ?b / _ mod 256) => replace a with b; [reflexivity|] end.
  apply digits_ext. intros k Hk. destruct (Z.ltb_spec k 16); rewrite H by lia; reflexivity.
Qed.
Lemma alpha_words_ext g g' : (forall p, 0 <= p < 16 -> g p = g' p) -> etc_alpha_words g = etc_alpha_words g'.
Proof.
  intros H. unfold etc_alpha_words. cbv zeta. replace (digits 8 16 (fun k => g (15 - k))) with (digits 8 16 (fun k => g' (15 - k))); [reflexivity|].
  apply digits_ext. intros k Hk. rewrite H by lia. reflexivity.
Qed.
Lemma flat_ext {A B} (g g' : A -> list B) l : (forall x, In x l -> g x = g' x) -> flat_map g l = flat_map g' l.
Proof. intros H. rewrite !flat_map_concat_map. f_equal. apply map_ext_in. exact H. Qed.
Lemma stored_cs : (if n_color_ends Q =? 0 then [] else u_color_sels f (k_color_sels K) (n_color_sels Q)) = pal_cs f Q.
Proof.
  unfold pal_cs, u_color_sels. cbv zeta. destruct (n_color_ends Q =? 0); [reflexivity|]. destruct (has_halves f); [|destruct (is_etc f)].
  - apply flat_ext. intros i I. apply in_zrange in I. f_equal; [|f_equal]; apply color_word_ext; intros p Hp; rewrite color_mix by (try lia; apply turned_range; lia); reflexivity.
  - apply map_ext_in. intros i I. apply in_zrange in I. apply color_word_ext; intros p Hp; rewrite color_mix by (try lia; apply turned_range; lia); reflexivity.
  - apply map_ext_in. intros i I. apply in_zrange in I. apply digits_ext; intros p Hp; rewrite color_mix by lia; reflexivity.
Qed.
Lemma stored_al : (if n_alpha_ends Q =? 0 then [] else u_alpha_sels f (k_alpha_sels K) (n_alpha_sels Q)) = pal_al f Q.
Proof.
  unfold pal_al, u_alpha_sels. cbv zeta. destruct (n_alpha_ends Q =? 0); [reflexivity|]. destruct (f =? 12); [|destruct (f =? 14)].
  - f_equal. apply flat_ext. intros i I. apply in_zrange in I. f_equal; apply alpha_words_ext; intros p Hp; rewrite alpha_mix by (try lia; apply turned_range; lia); reflexivity.
  - f_equal. apply flat_ext. intros i I. apply in_zrange in I. apply alpha_words_ext; intros p Hp; rewrite alpha_mix by (try lia; apply turned_range; lia); reflexivity.
  - apply flat_ext. intros i I. apply in_zrange in I.
    replace (digits 8 16 (fun k => znth alpha_code (mixed_value 8 (k_alpha_sels K) i k))) with (digits 8 16 (fun k => znth alpha_code (v_alpha_sels Q i k))); [reflexivity|].
    apply digits_ext; intros p Hp; rewrite alpha_mix by lia; reflexivity.
Qed.
Lemma len_ce : zlen (pal_ce f Q) = n_color_ends Q.
Proof. destruct OK as (H1 & _). unfold pal_ce, zlen. rewrite map_length. fold (zlen (zrange 0 (n_color_ends Q))). rewrite zlen_zrange. lia. Qed.
Lemma len_ae : zlen (pal_ae Q) = n_alpha_ends Q.
Proof. destruct OK as (_ & _ & H1 & _). unfold pal_ae, zlen. rewrite map_length. fold (zlen (zrange 0 (n_alpha_ends Q))). rewrite zlen_zrange. lia. Qed.
Lemma len_cs : n_color_ends Q <> 0 -> zlen (pal_cs f Q) = (if has_halves f then 2 else 1) * n_color_sels Q.
Proof.
  intros N. destruct OK as (_ & H1 & _). unfold pal_cs. cbv zeta. destruct (Z.eqb_spec (n_color_ends Q) 0); [lia|].
  destruct (has_halves f); [|destruct (is_etc f); unfold zlen; rewrite map_length; fold (zlen (zrange 0 (n_color_sels Q))); rewrite zlen_zrange; lia].
  rewrite (zlen_flat_map 2) by (try lia; intros; reflexivity). lia.
Qed.
Lemma len_al : n_alpha_ends Q <> 0 -> zlen (pal_al f Q) = if f =? 12 then 6 * n_alpha_sels Q + 1 else if f =? 14 then 3 * n_alpha_sels Q + 1 else 3 * n_alpha_sels Q.
Proof.
  intros N. destruct OK as (_ & _ & _ & H1 & _). unfold pal_al. cbv zeta. destruct (Z.eqb_spec (n_alpha_ends Q) 0); [lia|].
  destruct (f =? 12); [|destruct (f =? 14)]; [rewrite zlen_app, (zlen_flat_map 6) by (try lia; intros; reflexivity); change (zlen [0]) with 1; lia|rewrite zlen_app, (zlen_flat_map 3) by (try lia; intros; reflexivity); change (zlen [0]) with 1; lia|].
  rewrite (zlen_flat_map 3) by (try lia; intros; reflexivity). lia.
Qed.
End Palettes.
