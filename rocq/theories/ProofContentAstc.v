(** * Proofs about the pictures ASTC can store with one weight per texel. *)
From Verif Require Import Base BaseLemmas ModelColor SpecImage SpecBc SpecAstc SpecCut SpecEncode SpecContent SpecContentAstc ProofEncodeSolid ProofContent ProofContent7 ProofAstcSeq ProofAstcParams.

(** ** The fields of such a block *)
Definition range_bits (n : Z) : Z * Z * Z * Z := (* H P Q r *)
  match n with 1 => (0, 0, 1, 0) | 2 => (0, 1, 0, 0) | 3 => (0, 1, 1, 1) | 4 => (1, 1, 0, 0) | _ => (1, 1, 1, 1) end.
Definition mode_bits (bw bh n : Z) : Z :=
  let '(H, P, Q, r) := range_bits n in
  if (bw <=? 7) && (bh <=? 5) then H * 512 + (bw - 4) * 128 + (bh - 2) * 32 + r * 16 + P * 2 + Q
  else if bh <=? 5 then H * 512 + (bw - 8) * 128 + (bh - 2) * 32 + r * 16 + 4 + P * 2 + Q
  else if bw =? 10 then H * 512 + 416 + r * 16 + P * 8 + Q * 4
  else (bh - 6) * 512 + 256 + (bw - 6) * 32 + r * 16 + P * 8 + Q * 4.
Definition low_bits (bw bh kind n : Z) : Z := mode_bits bw bh n + 8192 * (4 * kind).
Definition made_layout (bw bh kind n : Z) : layout :=
  let '(H, P, Q, r) := range_bits n in
  mkLayout (mkGrid false (8 * H + 4 * P + 2 * Q + r) bw bh) (Bits, n) (bw * bh) (n * (bw * bh)) 1 [4 * kind] 0 17 (numbers kind) (Bits, 8).

Definition low_ok (bw bh kind n : Z) : bool :=
  let X := low_bits bw bh kind n in
  if (24 <=? bw * bh * n) && (bw * bh * n <=? 96) && (17 + 8 * numbers kind + bw * bh * n <=? 128) then
    (0 <=? X) && (X <? 2 ^ 17) && negb (bfield X 0 9 =? 0x1fc) && (bfield X 11 2 =? 0) && (bfield X 13 4 =? 4 * kind) &&
    match block_mode X with Some g => eqb (g_dual g) false && (g_range g =? g_range (l_grid (made_layout bw bh kind n))) && (g_width g =? bw) && (g_height g =? bh) | None => false end
  else true.
Lemma low_sweep : forallb (fun '(bw, bh) => all_below 4 (fun kind => all_below 5 (fun n => low_ok bw bh kind (n + 1)))) small_sizes = true.
Proof. vm_compute. reflexivity. Qed.
Lemma size_cases bw bh : In (bw, bh) small_sizes -> (In bw [4; 5; 6; 8; 10]) /\ (In bh [4; 5; 6; 8]) /\ 16 <= bw * bh <= 64.
Proof. intros H. unfold small_sizes in H. cbn [In] in H. repeat (destruct H as [H|H]; [inversion H; subst bw bh; cbn [In]; lia|]). contradiction. Qed.
Lemma low_facts bw bh kind n : In (bw, bh) small_sizes -> room (bw * bh) kind n ->
  let X := low_bits bw bh kind n in 0 <= X < 2 ^ 17 /\ bfield X 0 9 <> 0x1fc /\ bfield X 11 2 = 0 /\ bfield X 13 4 = 4 * kind /\
  block_mode X = Some (l_grid (made_layout bw bh kind n)).
Proof.
  intros HS (Hk & Hn & H1 & H2) X. pose proof low_sweep as S. rewrite forallb_forall in S. specialize (S (bw, bh) HS). cbv beta iota in S.
  pose proof (all_below_spec 4 _ S kind Hk) as S1. cbv beta in S1. pose proof (all_below_spec 5 _ S1 (n - 1) ltac:(lia)) as S2. cbv beta in S2.
  replace (n - 1 + 1) with n in S2 by ring. unfold low_ok in S2. fold X in S2.
  destruct (Z.leb_spec 24 (bw * bh * n)); [|lia]. destruct (Z.leb_spec (bw * bh * n) 96); [|lia]. destruct (Z.leb_spec (17 + 8 * numbers kind + bw * bh * n) 128); [|lia]. cbn [andb] in S2.
  rewrite !Bool.andb_true_iff in S2. destruct S2 as (((((A & B) & C) & D) & E) & F).
  split; [apply Z.leb_le in A; apply Z.ltb_lt in B; lia|]. split; [apply Bool.negb_true_iff, Z.eqb_neq in C; exact C|]. split; [apply Z.eqb_eq, D|]. split; [apply Z.eqb_eq, E|].
  destruct (block_mode X) as [[d r w h]|]; [|discriminate]. cbn [g_dual g_range g_width g_height] in F. rewrite !Bool.andb_true_iff in F. destruct F as (((F1 & F2) & F3) & F4).
  apply Bool.eqb_prop in F1. apply Z.eqb_eq in F2, F3, F4. subst d r w h. f_equal. unfold made_layout. destruct (range_bits n) as [[[h p] q] r]. reflexivity.
Qed.
Lemma rev_back n k : 1 <= n <= 5 -> 0 <= k < 2 ^ n -> rev_bits (Z.to_nat n) (rev_bits (Z.to_nat n) k) = k.
Proof.
  intros Hn Hk. apply Z.eqb_eq. assert (n = 1 \/ n = 2 \/ n = 3 \/ n = 4 \/ n = 5) as C by lia.
  destruct C as [-> | [-> | [-> | [-> | ->]]]]; revert k Hk; match goal with |- forall k, 0 <= k < ?N -> (@?p k) = true => apply (all_below_spec N p) end; vm_compute; reflexivity.
Qed.
Lemma share_ok n k : 1 <= n <= 5 -> 0 <= k < 2 ^ n -> weight_value Bits n (k, 0) = znth (shares n) k /\ znth (shares n) (2 ^ n - 1 - k) = 64 - znth (shares n) k.
Proof.
  intros Hn Hk. assert (n = 1 \/ n = 2 \/ n = 3 \/ n = 4 \/ n = 5) as C by lia.
  assert (((weight_value Bits n (k, 0) =? znth (shares n) k) && (znth (shares n) (2 ^ n - 1 - k) =? 64 - znth (shares n) k))%bool = true) as Q.
  { destruct C as [-> | [-> | [-> | [-> | ->]]]]; revert k Hk; match goal with |- forall k, 0 <= k < ?N -> (@?p k) = true => apply (all_below_spec N p) end; vm_compute; reflexivity. }
  apply Bool.andb_true_iff in Q. destruct Q as [A B]. split; apply Z.eqb_eq; assumption.
Qed.
Lemma full_value v : is_byte v -> color_value Bits 8 (v, 0) = v.
Proof.
  intros H. unfold is_byte in H. unfold color_value, bit_replicate. change ((2 ^ (8 * 8) - 1) / (2 ^ 8 - 1)) with 72340172838076673. change (2 ^ (8 * 8 - 8)) with 72057594037927936.
  clear - H. Z.to_euclidean_division_equations; lia.
Qed.
Lemma bits_entry n S k : 1 <= n -> 0 <= k -> seq_entry Bits n S k = (bfield S (n * k) n, 0).
Proof.
  intros Hn Hk. unfold seq_entry. change (per_block Bits) with 1. rewrite Z.div_1_r, Z.mod_1_r. change (block_size Bits n) with (0 + 1 * n). rewrite Z.add_0_l, Z.mul_1_l. f_equal.
  change (0 * n + before Bits 0) with 0. unfold bfield at 1. rewrite Z.pow_0_r, Z.div_1_r. apply Z.mod_small. unfold bfield. apply Z.mod_pos_bound. apply Z.pow_pos_nonneg; lia.
Qed.
Lemma bfield_in x p n q k : 0 <= p -> 0 <= q -> 0 <= k -> q + k <= n -> bfield (bfield x p n) q k = bfield x (p + q) k.
Proof.
  intros Hp Hq Hk Hn. unfold bfield. replace n with (q + (n - q)) at 1 by ring. rewrite (Z.pow_add_r 2 q (n - q)) by lia. rewrite Z.rem_mul_r by (apply Z.pow_nonzero || apply Z.pow_pos_nonneg; lia).
  rewrite (Z.mul_comm (2 ^ q)), Z.div_add by (apply Z.pow_nonzero; lia). rewrite (Z.div_small (_ mod 2 ^ q)) by (apply Z.mod_pos_bound, Z.pow_pos_nonneg; lia). rewrite Z.add_0_l, Z.div_div, <- Z.pow_add_r by (lia || apply Z.pow_nonzero || apply Z.pow_pos_nonneg; lia).
  replace (n - q) with (k + (n - q - k)) by ring. rewrite (Z.pow_add_r 2 k) by lia. rewrite Z.rem_mul_r by (apply Z.pow_nonzero || apply Z.pow_pos_nonneg; lia). rewrite (Z.mul_comm (2 ^ k)), Z.mod_add by (apply Z.pow_nonzero; lia). apply Z.mod_mod, Z.pow_nonzero; lia.
Qed.

(** ** The weight of a texel when there is one for each *)
Lemma step_exact d s : In d [4; 5; 6; 8; 10] -> 0 <= s < d -> ((1024 + d / 2) / (d - 1) * s * (d - 1) + 32) / 64 = 16 * s.
Proof.
  intros Hd Hs. apply Z.eqb_eq. cbn [In] in Hd. repeat (destruct Hd as [<-|Hd]; [revert s Hs; match goal with |- forall k, 0 <= k < ?N -> (@?p k) = true => apply (all_below_spec N p) end; vm_compute; reflexivity|]). contradiction.
Qed.
Lemma infill_exact bw bh wv s t : In (bw, bh) small_sizes -> 0 <= s < bw -> 0 <= t < bh -> infill bw bh bw bh 1 wv 0 s t = wv (s + t * bw).
Proof.
  intros HS Hs Ht. destruct (size_cases bw bh HS) as (A & B & _). unfold infill.
  rewrite (step_exact bw s A Hs), (step_exact bh t) by (assumption || (clear - B; cbn [In] in *; lia)).
  rewrite !(Z.mul_comm 16), !Z.div_mul, !Z.mod_mul by lia. cbv zeta. change (0 * 0 + 8) with 8. change (8 / 16) with 0.
  replace ((s + t * bw) * 1 + 0) with (s + t * bw) by ring. set (x := wv (s + t * bw)).
  match goal with |- (?e + 8) / 16 = _ => replace e with (x * 16) by ring end. clear. Z.to_euclidean_division_equations; lia.
Qed.

(** ** The block *)
Section Made.
Context (bw bh kind n : Z) (v i : Z -> Z) (HS : In (bw, bh) small_sizes) (HR : room (bw * bh) kind n).
Context (Hv : forall k, 0 <= k < numbers kind -> is_byte (v k)) (Hi : forall t, 0 <= t < bw * bh -> 0 <= i t < 2 ^ n).
Definition pad : Z := 111 - 8 * numbers kind - n * (bw * bh).
Definition made_list : list (nat * Z) :=
  [ent 17 (low_bits bw bh kind n)] ++ run (numbers kind) (fun _ => 8) v ++ [ent pad 0] ++ run (bw * bh) (fun _ => n) (fun k => rev_bits (Z.to_nat n) (i (bw * bh - 1 - k))) ++ [].
Definition made_block : list Z := to_bytes 16 (pack made_list).
Lemma numbers_bound : 2 <= numbers kind <= 8. Proof. destruct HR as (A & _). unfold numbers. lia. Qed.
Lemma pad_bound : 0 <= pad. Proof. destruct HR as (_ & _ & _ & A). unfold pad. lia. Qed.
Lemma made_packs : packable made_list.
Proof.
  destruct HR as (Hk & Hn & _). destruct (low_facts bw bh kind n HS HR) as (R & _). unfold packable, made_list. repeat (apply Forall_app; split).
  - apply Forall_cons; [exact R|apply Forall_nil].
  - apply run_packs. intros k H. split; [lia|]. exact (Hv k H).
  - apply Forall_cons; [|apply Forall_nil]. cbn [ent fst snd]. pose proof (Z.pow_pos_nonneg 2 (Z.of_nat (Z.to_nat pad)) ltac:(lia) ltac:(lia)). lia.
  - apply run_packs. intros k H. split; [lia|]. pose proof (rev_range (Z.to_nat n) (i (bw * bh - 1 - k))) as Q. rewrite Z2Nat.id in Q by lia. exact Q.
  - apply Forall_nil.
Qed.
Lemma made_wid : wid made_list = 128.
Proof.
  destruct HR as (Hk & Hn & _). pose proof numbers_bound. pose proof pad_bound. destruct (size_cases bw bh HS) as (_ & _ & S). unfold made_list. rewrite !wid_app, !wid_cons, !run_wid_const by lia.
  change (wid []) with 0. unfold pad. ring.
Qed.
Lemma made_word : astc_word made_block = pack made_list.
Proof.
  unfold astc_word, made_block. rewrite firstn_all2 by (rewrite to_bytes_len; lia). apply le_to_bytes. pose proof (pack_range _ made_packs) as R. pose proof made_wid as E. unfold wid in E. rewrite E in R. exact R.
Qed.
Let W := astc_word made_block.
Lemma made_low p k : 0 <= p -> 0 <= k -> p + k <= 17 -> bfield W p k = bfield (low_bits bw bh kind n) p k.
Proof.
  intros Hp Hk H. destruct (low_facts bw bh kind n HS HR) as (R & _). unfold W. rewrite made_word. unfold made_list, ent at 1. cbn [app]. rewrite pack_cons. change (Z.of_nat (Z.to_nat 17)) with 17.
  set (R' := pack _). transitivity (bfield (bfield (low_bits bw bh kind n + 2 ^ 17 * R') 0 17) p k); [rewrite bfield_in by lia; rewrite Z.add_0_l; reflexivity|]. f_equal.
  unfold bfield. rewrite Z.pow_0_r, Z.div_1_r, Z.mul_comm, Z.mod_add by (apply Z.pow_nonzero; lia). apply Z.mod_small, R.
Qed.
Lemma made_value k : 0 <= k < numbers kind -> bfield W (17 + 8 * k) 8 = v k.
Proof.
  intros H. unfold W. rewrite made_word. unfold bfield. pose proof made_packs as P. unfold made_list in *.
  pose proof (run_at [ent 17 (low_bits bw bh kind n)] (numbers kind) (fun _ => 8) v _ k H ltac:(intros; lia) P) as Q. cbv beta in Q. rewrite run_wid_const in Q by lia. exact Q.
Qed.
Lemma made_weight t : 0 <= t < bw * bh -> bfield W (128 - n * t - n) n = rev_bits (Z.to_nat n) (i t).
Proof.
  intros H. destruct HR as (Hk & Hn & _). pose proof numbers_bound. pose proof pad_bound. unfold W. rewrite made_word. unfold bfield. pose proof made_packs as P. unfold made_list in *. rewrite !app_assoc in *. rewrite <- (app_assoc _ _ []) in *.
  set (l1 := (([ent 17 _] ++ _) ++ [ent pad 0])) in *.
  pose proof (run_at l1 (bw * bh) (fun _ => n) (fun k => rev_bits (Z.to_nat n) (i (bw * bh - 1 - k))) [] (bw * bh - 1 - t) ltac:(lia) ltac:(intros; lia) P) as Q. cbv beta in Q.
  rewrite run_wid_const in Q by lia. replace (bw * bh - 1 - (bw * bh - 1 - t)) with t in Q by ring. rewrite <- Q. f_equal. f_equal. f_equal. unfold l1. rewrite !wid_app, !wid_cons, run_wid_const by lia. change (wid []) with 0. unfold pad. ring.
Qed.
Lemma made_void : void_extent W = false.
Proof. destruct (low_facts bw bh kind n HS HR) as (_ & V & _). unfold void_extent. rewrite made_low by lia. apply Z.eqb_neq, V. Qed.
Lemma made_layout_ok : block_layout W = Some (made_layout bw bh kind n).
Proof.
  destruct (low_facts bw bh kind n HS HR) as (_ & _ & P & C & M). pose proof HR as (Hk & Hn & H1 & H2).
  assert (block_mode W = Some (l_grid (made_layout bw bh kind n))) as B by (rewrite <- M; apply block_mode_ext; intros j Hj; apply made_low; lia).
  unfold block_layout. rewrite B. rewrite (made_low 11 2), P, (made_low 13 4), C by lia.
  assert (weight_quant (g_range (l_grid (made_layout bw bh kind n))) = Some (Bits, n)) as -> by (clear - Hn; assert (n = 1 \/ n = 2 \/ n = 3 \/ n = 4 \/ n = 5) as D by lia; destruct D as [-> | [-> | [-> | [-> | ->]]]]; reflexivity).
  unfold made_layout. destruct (range_bits n) as [[[h p] q] r]. cbn [l_grid g_width g_height g_dual g_range]. cbv zeta. change (0 + 1 =? 1) with true. cbn [orb]. cbv iota. rewrite Z.mul_1_r. change (seq_size Bits n (bw * bh)) with (n * (bw * bh)).
  assert (zsum (map cem_values [4 * kind]) = numbers kind) as ->. { cbn [map zsum fold_right]. unfold cem_values, numbers. rewrite (Z.mul_comm 4), Z.div_mul by lia. ring. }
  assert (color_quant (numbers kind) (128 - n * (bw * bh) - 0 - 0 - 17) = Some (Bits, 8)) as ->.
  { unfold color_quant, color_quants. cbn [find]. change (seq_size Bits 8 (numbers kind)) with (8 * numbers kind). destruct (Z.leb_spec (8 * numbers kind) (128 - n * (bw * bh) - 0 - 0 - 17)); [reflexivity|lia]. }
  destruct (size_cases bw bh HS) as (_ & _ & S). destruct (Z.leb_spec (bw * bh) 64); [|lia]. destruct (Z.leb_spec (n * (bw * bh)) 96); [|lia]. reflexivity.
Qed.
Lemma made_good : well_formed W.
Proof. split; [unfold void_neg_inf; rewrite made_void; reflexivity|]. right. right. rewrite made_layout_ok. discriminate. Qed.
Let l := made_layout bw bh kind n.
Lemma made_fields : l_wcount l = bw * bh /\ l_wq l = (Bits, n) /\ l_wbits l = n * (bw * bh) /\ l_cq l = (Bits, 8) /\ l_cstart l = 17 /\ l_cvalues l = numbers kind /\
  l_parts l = 1 /\ l_cems l = [4 * kind] /\ g_dual (l_grid l) = false /\ g_width (l_grid l) = bw /\ g_height (l_grid l) = bh.
Proof. unfold l, made_layout. destruct (range_bits n) as [[[h p] q] r]. cbn [l_wcount l_wq l_wbits l_cq l_cstart l_cvalues l_parts l_cems l_grid g_dual g_width g_height]. repeat split. Qed.
Lemma made_weights t : 0 <= t < bw * bh -> weights_of W l t = znth (shares n) (i t).
Proof.
  intros H. destruct made_fields as (F1 & F2 & F3 & _). destruct HR as (Hk & Hn & H1 & H2). unfold weights_of. rewrite F1, F2, F3. destruct (Z.ltb_spec t (bw * bh)); [|lia].
  assert (n * t + n <= n * (bw * bh)) as Q by (replace (n * t + n) with (n * (t + 1)) by ring; apply Z.mul_le_mono_nonneg_l; lia).
  assert (0 <= n * t) by (apply Z.mul_nonneg_nonneg; lia).
  rewrite bits_entry by lia. rewrite bfield_in by lia. rewrite Z.add_0_l. rewrite <- (rev_field 128 W (n * t) n) by lia. change (Z.of_nat 128) with 128. rewrite made_weight by exact H.
  rewrite rev_back by (lia || apply Hi, H). apply share_ok; [lia|apply Hi, H].
Qed.
Lemma made_colors k : 0 <= k < numbers kind -> colors_of W l k = v k.
Proof.
  intros H. destruct made_fields as (_ & _ & _ & F4 & F5 & F6 & _). unfold colors_of. rewrite F4, F5, F6. change (seq_size Bits 8 (numbers kind)) with (8 * numbers kind).
  rewrite bits_entry by lia. rewrite bfield_in by lia. rewrite made_value by exact H. apply full_value, Hv, H.
Qed.
Lemma made_texel sx t : 0 <= t < bw * bh -> astc_texel_with sx bw bh W t =
  let '(e0, e1) := end_points_with sx (4 * kind) (fun k => colors_of W l k) in
  let w := znth (shares n) (i t) in
  astc_rgba (ldr_texel (channel e0 0) (channel e1 0) w) (ldr_texel (channel e0 1) (channel e1 1) w) (ldr_texel (channel e0 2) (channel e1 2) w) (ldr_texel (channel e0 3) (channel e1 3) w).
Proof.
  intros H. unfold astc_texel_with. rewrite made_void, made_layout_ok. fold l. destruct made_fields as (_ & _ & _ & _ & _ & _ & F7 & F8 & F9 & F10 & F11). unfold legal_texel_with. rewrite F7, F8, F9, F10, F11. change (1 =? 1) with true. cbv iota zeta. cbn [andb].
  change (znth [4 * kind] 0) with (4 * kind).
  assert (cem_start l 0 = 0) as -> by reflexivity. change (fun k : Z => colors_of W l (0 + k)) with (fun k : Z => colors_of W l k).
  destruct (size_cases bw bh HS) as (Sw & _ & _). assert (0 < bw) by (clear - Sw; cbn [In] in Sw; lia).
  rewrite infill_exact; [|exact HS|apply Z.mod_pos_bound; lia|split; [apply Z.div_pos; lia|apply Z.div_lt_upper_bound; lia]].
  replace (t mod bw + t / bw * bw) with t by (rewrite Z.add_comm, Z.mul_comm; apply Z.div_mod; lia). rewrite made_weights by exact H.
  destruct HR as (Hk & _). assert (kind = 0 \/ kind = 1 \/ kind = 2 \/ kind = 3) as C by lia. destruct (end_points_with sx (4 * kind) _) as [e0 e1].
  destruct C as [-> | [-> | [-> | ->]]]; reflexivity.
Qed.
End Made.

(** ** Every pattern is stored *)
Definition value_of (kind : Z) (c0 c1 : Z -> Z) (k : Z) : Z :=
  let ch := if (kind <? 2) && (2 <=? k) then 3 else k / 2 in if k mod 2 =? 0 then c0 ch else c1 ch.
Definition total (c : Z -> Z) : Z := c 0 + c 1 + c 2.
Lemma value_byte kind c0 c1 k : of_kind kind c0 -> of_kind kind c1 -> 0 <= k < numbers kind -> 0 <= kind < 4 -> is_byte (value_of kind c0 c1 k).
Proof.
  intros (A & _) (B & _) Hk HK. unfold value_of, numbers in *. assert (0 <= (if (kind <? 2) && (2 <=? k) then 3 else k / 2) < 4) as C.
  { destruct (kind <? 2); cbn [andb]; [destruct (2 <=? k)|]; clear - Hk HK; Z.to_euclidean_division_equations; lia. }
  destruct (k mod 2 =? 0); [apply A, C|apply B, C].
Qed.
Lemma rgba_same r g b a : astc_rgba r g b a = rgba r g b a. Proof. unfold astc_rgba, rgba. ring. Qed.
Lemma ordered_stored bw bh kind n c0 c1 i : In (bw, bh) small_sizes -> room (bw * bh) kind n -> of_kind kind c0 -> of_kind kind c1 -> (2 <= kind -> total c0 <= total c1) ->
  (forall t, 0 <= t < bw * bh -> 0 <= i t < 2 ^ n) ->
  let b := made_block bw bh kind n (value_of kind c0 c1) i in
  bytes b /\ zlen b = 16 /\ well_formed (astc_word b) /\ forall t, 0 <= t < bw * bh -> astc_texel_with extend16 bw bh (astc_word b) t = shade c0 c1 (znth (shares n) (i t)).
Proof.
  intros HS HR K0 K1 HO Hi b. pose proof HR as (Hk & _).
  assert (forall k, 0 <= k < numbers kind -> is_byte (value_of kind c0 c1 k)) as Hv by (intros k H; apply value_byte; assumption).
  split; [apply to_bytes_bytes|]. split; [unfold b, made_block, zlen; rewrite to_bytes_len; reflexivity|]. split; [apply made_good; assumption|].
  intros t Ht. unfold b. rewrite (made_texel bw bh kind n _ i HS HR Hv Hi extend16 t Ht).
  pose proof (made_colors bw bh kind n _ i HS HR Hv) as C. destruct K0 as (_ & A0 & G0). destruct K1 as (_ & A1 & G1). unfold shade. set (w := znth (shares n) (i t)). set (col := colors_of _ _) in *.
  assert (kind = 0 \/ kind = 1 \/ kind = 2 \/ kind = 3) as D by (clear - Hk; lia). clear HR Hi Hv. unfold numbers in C.
  destruct D as [E | [E | [E | E]]]; subst kind.
  - destruct (G0 ltac:(lia)) as [P0 Q0]. destruct (G1 ltac:(lia)) as [P1 Q1]. change (4 * 0) with 0. cbn [end_points_with]. rewrite (C 0), (C 1) by lia. rewrite rgba_same. cbn [channel]. unfold value_of. change (znth [?a; _; _; _] 0) with a.
    change (c0 (0 / 2)) with (c0 0). rewrite A0, A1 by reflexivity. rewrite <- Q0, <- P0, <- Q1, <- P1. reflexivity.
  - destruct (G0 ltac:(lia)) as [P0 Q0]. destruct (G1 ltac:(lia)) as [P1 Q1]. change (4 * 1) with 4. cbn [end_points_with]. rewrite (C 0), (C 1), (C 2), (C 3) by lia. rewrite rgba_same. rewrite <- Q0, <- P0, <- Q1, <- P1. reflexivity.
  - change (4 * 2) with 8. cbn [end_points_with]. rewrite (C 0), (C 1), (C 2), (C 3), (C 4), (C 5) by lia.
    change (value_of 2 c0 c1 0) with (c0 0). change (value_of 2 c0 c1 1) with (c1 0). change (value_of 2 c0 c1 2) with (c0 1). change (value_of 2 c0 c1 3) with (c1 1). change (value_of 2 c0 c1 4) with (c0 2). change (value_of 2 c0 c1 5) with (c1 2).
    specialize (HO ltac:(lia)). unfold total in HO. destruct (Z.leb_spec (c0 0 + c0 1 + c0 2) (c1 0 + c1 1 + c1 2)) as [O|O]; [|lia]. rewrite rgba_same, A0, A1 by reflexivity. reflexivity.
  - change (4 * 3) with 12. cbn [end_points_with]. rewrite (C 0), (C 1), (C 2), (C 3), (C 4), (C 5), (C 6), (C 7) by lia.
    change (value_of 3 c0 c1 0) with (c0 0). change (value_of 3 c0 c1 1) with (c1 0). change (value_of 3 c0 c1 2) with (c0 1). change (value_of 3 c0 c1 3) with (c1 1). change (value_of 3 c0 c1 4) with (c0 2). change (value_of 3 c0 c1 5) with (c1 2). change (value_of 3 c0 c1 6) with (c0 3). change (value_of 3 c0 c1 7) with (c1 3).
    specialize (HO ltac:(lia)). unfold total in HO. destruct (Z.leb_spec (c0 0 + c0 1 + c0 2) (c1 0 + c1 1 + c1 2)) as [O|O]; [|lia]. rewrite rgba_same. reflexivity.
Qed.
Lemma texel_swap a b w : ldr_texel a b w = ldr_texel b a (64 - w).
Proof. unfold ldr_texel. do 5 f_equal. ring. Qed.
Lemma shade_swap c0 c1 w : shade c0 c1 w = shade c1 c0 (64 - w).
Proof. unfold shade. rewrite !(texel_swap (c0 _)). reflexivity. Qed.
Lemma shades_stored bw bh kind n f : In (bw, bh) small_sizes -> room (bw * bh) kind n -> shades_pattern (bw * bh) kind n f ->
  exists b, bytes b /\ zlen b = 16 /\ well_formed (astc_word b) /\ forall t, 0 <= t < bw * bh -> astc_texel_with extend16 bw bh (astc_word b) t = f t.
Proof.
  intros HS HR (c0 & c1 & i & K0 & K1 & Hi & Hf). pose proof HR as (_ & Hn & _). destruct (Z.le_gt_cases (total c0) (total c1)) as [O|O].
  - destruct (ordered_stored bw bh kind n c0 c1 i HS HR K0 K1 (fun _ => O) Hi) as (A & B & C & D). eexists. split; [exact A|]. split; [exact B|]. split; [exact C|]. intros t Ht. rewrite D, Hf by exact Ht. reflexivity.
  - destruct (ordered_stored bw bh kind n c1 c0 (fun t => 2 ^ n - 1 - i t) HS HR K1 K0 ltac:(intros; lia) ltac:(intros t Ht; pose proof (Hi t Ht); lia)) as (A & B & C & D).
    eexists. split; [exact A|]. split; [exact B|]. split; [exact C|]. intros t Ht. rewrite D, Hf by exact Ht. rewrite (proj2 (share_ok n (i t) Hn (Hi t Ht))). symmetry. apply shade_swap.
Qed.

(** ** Two colours *)
Lemma texel_first a b : is_byte a -> ldr_texel a b 0 = a.
Proof. intros H. unfold is_byte in H. unfold ldr_texel. rewrite Z.mul_0_r, Z.add_0_r, Z.sub_0_r. replace ((a * 257 * 64 + 32) / 64) with (a * 257) by (clear; Z.to_euclidean_division_equations; lia). clear - H; Z.to_euclidean_division_equations; lia. Qed.
Lemma shade_first kind c0 c1 : of_kind kind c0 -> shade c0 c1 0 = rgba (c0 0) (c0 1) (c0 2) (c0 3).
Proof. intros (H & _). unfold shade. rewrite !texel_first by (apply H; lia). reflexivity. Qed.
Lemma shade_last kind c0 c1 : of_kind kind c1 -> shade c0 c1 64 = rgba (c1 0) (c1 1) (c1 2) (c1 3).
Proof. intros H. rewrite shade_swap. apply (shade_first kind), H. Qed.
Lemma ends n : 1 <= n <= 5 -> znth (shares n) 0 = 0 /\ znth (shares n) (2 ^ n - 1) = 64.
Proof. intros Hn. assert (n = 1 \/ n = 2 \/ n = 3 \/ n = 4 \/ n = 5) as C by lia. destruct C as [-> | [-> | [-> | [-> | ->]]]]; split; reflexivity. Qed.
Lemma two_composed bw bh kind n (ok : Z -> Prop) w h pic : 0 < bw -> 0 < bh -> 1 <= n <= 5 -> (forall u, ok u -> exists c, of_kind kind c /\ u = rgba (c 0) (c 1) (c 2) (c 3)) ->
  two_colours bw bh ok w h pic -> composed_of bw bh (shades_pattern (bw * bh) kind n) w h pic.
Proof.
  intros Hw Hh Hn HC HT bx by_ Hx Hy Px Py. destruct (HT bx by_ Hx Hy Px Py) as (u & v & U & V & Q). destruct (HC u U) as (c0 & K0 & E0). destruct (HC v V) as (c1 & K1 & E1).
  set (i := fun t => if pic (bw * bx + t mod bw) (bh * by_ + t / bw) =? u then 0 else 2 ^ n - 1).
  pose proof (Z.pow_pos_nonneg 2 n ltac:(lia) ltac:(lia)) as PP. exists (fun t => shade c0 c1 (znth (shares n) (i t))). split.
  - exists c0, c1, i. split; [exact K0|]. split; [exact K1|]. split; [|reflexivity]. intros t _. unfold i. destruct (_ =? u); lia.
  - intros x y Ix Iy Lx Ly. unfold i. replace (((y - bh * by_) * bw + (x - bw * bx)) mod bw) with (x - bw * bx) by (rewrite Z.add_comm, Z.mod_add by lia; symmetry; apply Z.mod_small; lia).
    replace (((y - bh * by_) * bw + (x - bw * bx)) / bw) with (y - bh * by_) by (rewrite Z.add_comm, Z.div_add by lia; rewrite Z.div_small by lia; ring).
    replace (bw * bx + (x - bw * bx)) with x by ring. replace (bh * by_ + (y - bh * by_)) with y by ring.
    destruct (ends n Hn) as [S0 S1]. destruct (Z.eqb_spec (pic x y) u) as [E|E].
    + rewrite S0, (shade_first kind) by exact K0. congruence.
    + rewrite S1, (shade_last kind) by exact K1. destruct (Q x y Ix Iy Lx Ly); congruence.
Qed.
Definition listed (r g b a ch : Z) : Z := znth [r; g; b; a] ch.
Lemma listed_bytes r g b a ch : is_byte r -> is_byte g -> is_byte b -> is_byte a -> 0 <= ch < 4 -> is_byte (listed r g b a ch).
Proof. intros R G B A H. assert (ch = 0 \/ ch = 1 \/ ch = 2 \/ ch = 3) as [-> | [-> | [-> | ->]]] by lia; assumption. Qed.
Lemma any_kind u : any_colour u -> exists c, of_kind 3 c /\ u = rgba (c 0) (c 1) (c 2) (c 3).
Proof.
  intros H. destruct (word_channels u H) as (r & g & b & a & R & G & B & A & ->). exists (listed r g b a). split; [|reflexivity].
  split; [intros; apply listed_bytes; assumption|]. split; [intros E; discriminate E|lia].
Qed.
Lemma opaque_kind u : opaque_colour u -> exists c, of_kind 2 c /\ u = rgba (c 0) (c 1) (c 2) (c 3).
Proof.
  intros (r & g & b & R & G & B & ->). exists (listed r g b 255). split; [|reflexivity].
  split; [intros; apply listed_bytes; assumption || (unfold is_byte; lia)|]. split; [reflexivity|lia].
Qed.
Lemma grey_kind u : grey u -> exists c, of_kind 1 c /\ u = rgba (c 0) (c 1) (c 2) (c 3).
Proof.
  intros (v & a & V & A & ->). exists (listed v v v a). split; [|reflexivity].
  split; [intros; apply listed_bytes; assumption|]. split; [intros E; discriminate E|split; reflexivity].
Qed.
