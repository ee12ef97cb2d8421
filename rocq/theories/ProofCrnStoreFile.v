(** * The stored palettes and levels read as what was stored. *)
From Verif Require Import Base BaseLemmas ModelCrn SpecCrn SpecCrnHeader SpecCrnLevel SpecCrnFile SpecCrnSound SpecCrnStore
  ProofCrnBits ProofCrnHeader ProofCrnGrid ProofCrnLevel ProofCrnFile ProofCrnStore.

(** ** Palettes *)
Lemma tab_znth_all (l : list Z) (g : Z -> Z) : (forall i, 0 <= i < zlen l -> g i = znth l i) -> map g (zrange 0 (zlen l)) = l.
Proof.
  intros H. fold (tab (zlen l) g). apply znth_ext; [rewrite zlen_tab; unfold zlen; lia|]. intros i Hi. rewrite zlen_tab in Hi. rewrite znth_tab by (unfold zlen in *; lia). apply H. unfold zlen in *; lia.
Qed.
Lemma forall_znth (R : Z -> Prop) l i : Forall R l -> 0 <= i < zlen l -> R (znth l i).
Proof. intros F Hi. rewrite Forall_forall in F. apply F. unfold znth. apply nth_In. unfold zlen in Hi. lia. Qed.
Lemma div_range a b c : 0 < b -> 0 <= a < b * c -> 0 <= a / b < c.
Proof. intros. split; [apply Z.div_pos; lia|apply Z.div_lt_upper_bound; lia]. Qed.
Lemma color_part_range ce i k : 0 <= k < 6 -> 0 <= color_part ce i k < (if is_green k then 64 else 32).
Proof.
  intros Hk. unfold color_part, is_green. cbv zeta. set (c := if k <? 3 then _ else _).
  assert (0 <= c < 65536) as Hc by (unfold c; destruct (k <? 3); apply Z.mod_pos_bound; lia). clearbody c.
  destruct (Z.eqb_spec (k mod 3) 0); destruct (Z.eqb_spec (k mod 3) 1); try lia.
  - apply div_range; lia.
  - apply Z.mod_pos_bound. lia.
  - apply Z.mod_pos_bound. lia.
Qed.
Lemma join_565 c : 0 <= c -> c / 2048 * 2048 + c / 32 mod 64 * 32 + c mod 32 = c.
Proof.
  intros H. change 2048 with (32 * 64). rewrite <- Z.div_div by lia. pose proof (Z.div_mod c 32 ltac:(lia)). pose proof (Z.div_mod (c / 32) 64 ltac:(lia)). lia.
Qed.
Lemma stored_color_ends ce cs ae al : Forall (fun c => 0 <= c < 2 ^ 32) ce -> color_ends (k_color_ends (stored_contents ce cs ae al)) (zlen ce) = ce.
Proof.
  intros F. unfold color_ends, stored_contents. cbn [k_color_ends]. apply tab_znth_all. intros i Hi. cbv zeta.
  pose proof (forall_znth _ ce i F Hi) as Hc. cbv beta in Hc.
  assert (forall k, 0 <= k < 6 -> moved (if is_green k then 64 else 32) i (fun i' => step_mod (if is_green k then 64 else 32) (fun i'' => color_part ce i'' k) i') = color_part ce i k) as M.
  { intros k Hk. change (fun i' => step_mod ?b ?x i') with (step_mod b x). rewrite moved_steps by (destruct (is_green k); lia). apply Z.mod_small. apply color_part_range. exact Hk. }
  rewrite !M by lia. unfold color_part. cbn [Z.ltb Z.compare Pos.compare Pos.compare_cont].
  change (0 mod 3) with 0. change (1 mod 3) with 1. change (2 mod 3) with 2. change (3 mod 3) with 0. change (4 mod 3) with 1. change (5 mod 3) with 2. cbn [Z.eqb Pos.eqb].
  pose proof (Z.mod_pos_bound (znth ce i) 65536 ltac:(lia)). pose proof (Z.mod_pos_bound (znth ce i / 65536) 65536 ltac:(lia)).
  rewrite !join_565 by lia. pose proof (div_range (znth ce i) 65536 65536 ltac:(lia) ltac:(lia)). rewrite (Z.mod_small (_ / 65536)) by lia.
  pose proof (Z.div_mod (znth ce i) 65536 ltac:(lia)). lia.
Qed.
Lemma stored_alpha_ends ce cs ae al : Forall (fun c => 0 <= c < 2 ^ 16) ae -> alpha_ends (k_alpha_ends (stored_contents ce cs ae al)) (zlen ae) = ae.
Proof.
  intros F. unfold alpha_ends, stored_contents. cbn [k_alpha_ends]. apply tab_znth_all. intros i Hi. pose proof (forall_znth _ ae i F Hi) as Ha. cbv beta in Ha.
  change (fun i' => step_mod ?b ?x i') with (step_mod b x). rewrite !moved_steps by lia. unfold alpha_part. rewrite !Z.mod_mod by lia.
  change (256 ^ 0) with 1. change (256 ^ 1) with 256. rewrite Z.div_1_r. pose proof (div_range (znth ae i) 256 256 ltac:(lia) ltac:(lia)). rewrite (Z.mod_small (_ / 256)) by lia.
  pose proof (Z.div_mod (znth ae i) 256 ltac:(lia)). lia.
Qed.
Lemma four_values x : 0 <= x < 4 -> x = 0 \/ x = 1 \/ x = 2 \/ x = 3.
Proof. lia. Qed.
Lemma eight_values x : 0 <= x < 8 -> x = 0 \/ x = 1 \/ x = 2 \/ x = 3 \/ x = 4 \/ x = 5 \/ x = 6 \/ x = 7.
Proof. lia. Qed.
Lemma color_rank_ok v : 0 <= znth color_rank (v mod 4) <= 3 /\ znth color_code (znth color_rank (v mod 4)) = v mod 4.
Proof. destruct (four_values (v mod 4) (Z.mod_pos_bound v 4 ltac:(lia))) as [E|[E|[E|E]]]; rewrite E; split; try reflexivity; vm_compute; split; congruence. Qed.
Lemma alpha_rank_ok v : 0 <= znth alpha_rank (v mod 8) <= 7 /\ znth alpha_code (znth alpha_rank (v mod 8)) = v mod 8.
Proof. destruct (eight_values (v mod 8) (Z.mod_pos_bound v 8 ltac:(lia))) as [E|[E|[E|[E|[E|[E|[E|E]]]]]]]; rewrite E; split; try reflexivity; vm_compute; split; congruence. Qed.
Lemma stored_color_sels ce cs ae al : Forall (fun c => 0 <= c < 2 ^ 32) cs -> color_sels (k_color_sels (stored_contents ce cs ae al)) (zlen cs) = cs.
Proof.
  intros F. unfold color_sels, stored_contents. cbn [k_color_sels]. apply tab_znth_all. intros i Hi. pose proof (forall_znth _ cs i F Hi) as Ha. cbv beta in Ha.
  transitivity (digits 4 16 (fun k => znth cs i / 4 ^ k mod 4)).
  - unfold digits. apply zsum_ext. intros k Hk. f_equal. rewrite selector_steps; [|lia|lia|intros; apply color_rank_ok]. apply color_rank_ok.
  - apply digits_number; lia.
Qed.
Lemma stored_alpha_sels ce cs ae al : zlen al mod 3 = 0 -> Forall (fun c => 0 <= c < 2 ^ 16) al -> alpha_sels (k_alpha_sels (stored_contents ce cs ae al)) (zlen al / 3) = al.
Proof.
  intros L F. unfold alpha_sels, stored_contents. cbn [k_alpha_sels]. pose proof (Z.div_mod (zlen al) 3 ltac:(lia)) as D. set (n := zlen al / 3) in *.
  assert (0 <= zlen al) as Hz by (unfold zlen; lia). assert (0 <= n) as Hn by lia.
  assert (forall i, zlen (let v := digits 8 16 (fun k => znth alpha_code (selector_value 7 (pair_step 7 (alpha_level al)) i k)) in map (fun w => v / 65536 ^ w mod 65536) (zrange 0 3)) = 3) as L3 by (intros i; reflexivity).
  apply znth_ext; [rewrite (zlen_flat_map 3) by (try lia; intros; apply L3); lia|]. intros i Hi. rewrite (zlen_flat_map 3) in Hi by (try lia; intros; apply L3).
  rewrite (znth_flat_map 3) by (try lia; intros; apply L3). cbv zeta. set (q := i / 3). set (r := i mod 3). pose proof (Z.div_mod i 3 ltac:(lia)) as DI. pose proof (Z.mod_pos_bound i 3 ltac:(lia)) as Hr. fold q r in DI, Hr.
  assert (0 <= q < n) as Hq by lia.
  pose proof (forall_znth _ al (3 * q) F ltac:(lia)) as A0. pose proof (forall_znth _ al (3 * q + 1) F ltac:(lia)) as A1. pose proof (forall_znth _ al (3 * q + 2) F ltac:(lia)) as A2. cbv beta in A0, A1, A2.
  assert (0 <= alpha_number al q < 8 ^ 16) as R by (unfold alpha_number; change (65536 ^ 2) with 4294967296; change (8 ^ 16) with 281474976710656; lia).
  fold (tab 3 (fun w => digits 8 16 (fun k => znth alpha_code (selector_value 7 (pair_step 7 (alpha_level al)) q k)) / 65536 ^ w mod 65536)). rewrite znth_tab by lia.
  replace (digits 8 16 (fun k => znth alpha_code (selector_value 7 (pair_step 7 (alpha_level al)) q k))) with (alpha_number al q).
  - assert (r = 0 \/ r = 1 \/ r = 2) as [E|[E|E]] by lia; rewrite E in *.
    + replace i with (3 * q) by lia. unfold alpha_number. change (65536 ^ 0) with 1. rewrite Z.div_1_r.
      replace (znth al (3 * q) + 65536 * znth al (3 * q + 1) + 65536 ^ 2 * znth al (3 * q + 2)) with (znth al (3 * q) + (znth al (3 * q + 1) + 65536 * znth al (3 * q + 2)) * 65536) by lia.
      rewrite Z.mod_add by lia. apply Z.mod_small. lia.
    + replace i with (3 * q + 1) by lia. unfold alpha_number. change (65536 ^ 1) with 65536.
      replace (znth al (3 * q) + 65536 * znth al (3 * q + 1) + 65536 ^ 2 * znth al (3 * q + 2)) with (znth al (3 * q) + (znth al (3 * q + 1) + znth al (3 * q + 2) * 65536) * 65536) by lia.
      rewrite Z.div_add, Z.div_small, Z.add_0_l, Z.mod_add by lia. apply Z.mod_small. lia.
    + replace i with (3 * q + 2) by lia. unfold alpha_number. change (65536 ^ 2) with 4294967296.
      replace (znth al (3 * q) + 65536 * znth al (3 * q + 1) + 4294967296 * znth al (3 * q + 2)) with (znth al (3 * q) + 65536 * znth al (3 * q + 1) + znth al (3 * q + 2) * 4294967296) by lia.
      rewrite Z.div_add, Z.div_small, Z.add_0_l by lia. apply Z.mod_small. lia.
  - symmetry. transitivity (digits 8 16 (fun k => alpha_number al q / 8 ^ k mod 8)).
    + unfold digits. apply zsum_ext. intros k Hk. f_equal. rewrite selector_steps; [|lia|lia|intros; apply alpha_rank_ok]. apply alpha_rank_ok.
    + apply digits_number; lia.
Qed.

(** ** Levels *)
Section Level.
Context (planes : list plane) (P : Z -> Z -> Z -> chunk) (W H faces : Z) (HW : 1 <= W) (HH : 1 <= H) (HF : 1 <= faces).
Context (Fit : all_fit planes P W H faces).
Notation D := (stored_level planes P W H).
Notation at_ n := (chunk_at P W H n).

Lemma stored_cut n : cut_of D n = ch_cut (at_ n) mod 8.
Proof.
  unfold cut_of, stored_level. cbn [group]. set (c := fun n => ch_cut (at_ n) mod 8).
  assert (forall n, 0 <= c n < 8) as R by (intros; apply Z.mod_pos_bound; lia).
  change (ch_cut (at_ n) mod 8) with (c n). change (ch_cut (at_ (3 * (n / 3))) mod 8) with (c (3 * (n / 3))). change (ch_cut (at_ (3 * (n / 3) + 1)) mod 8) with (c (3 * (n / 3) + 1)). change (ch_cut (at_ (3 * (n / 3) + 2)) mod 8) with (c (3 * (n / 3) + 2)).
  pose proof (Z.div_mod n 3 ltac:(lia)) as E. pose proof (Z.mod_pos_bound n 3 ltac:(lia)). set (q := n / 3) in *. clearbody c.
  pose proof (R (3 * q)). pose proof (R (3 * q + 1)). pose proof (R (3 * q + 2)).
  assert (n mod 3 = 0 \/ n mod 3 = 1 \/ n mod 3 = 2) as [G|[G|G]] by lia; rewrite G in *.
  - replace n with (3 * q) by lia. change (8 ^ 0) with 1. rewrite Z.div_1_r. replace (c (3 * q) + 8 * c (3 * q + 1) + 64 * c (3 * q + 2)) with (c (3 * q) + (c (3 * q + 1) + 8 * c (3 * q + 2)) * 8) by lia. rewrite Z.mod_add by lia. apply Z.mod_small. lia.
  - replace n with (3 * q + 1) by lia. change (8 ^ 1) with 8. replace (c (3 * q) + 8 * c (3 * q + 1) + 64 * c (3 * q + 2)) with (c (3 * q) + (c (3 * q + 1) + c (3 * q + 2) * 8) * 8) by lia. rewrite Z.div_add, Z.div_small, Z.add_0_l, Z.mod_add by lia. apply Z.mod_small. lia.
  - replace n with (3 * q + 2) by lia. change (8 ^ 2) with 64. replace (c (3 * q) + 8 * c (3 * q + 1) + 64 * c (3 * q + 2)) with (c (3 * q) + 8 * c (3 * q + 1) + c (3 * q + 2) * 64) by lia. rewrite Z.div_add, Z.div_small, Z.add_0_l by lia. apply Z.mod_small. lia.
Qed.
(** Steps from a start [a] modulo [b]. *)
Lemma zsum_from b a x n : 0 < b -> 0 <= n -> zsum (n + 1) (fun t => (x t - (if t =? 0 then a else x (t - 1))) mod b) mod b = (x n - a) mod b.
Proof.
  intros Hb Hn. rewrite zsum_mod by lia. f_equal. pattern n. apply natlike_ind; [|intros k Hk IH; change (Z.succ k) with (k + 1)|exact Hn].
  - rewrite zsum_succ by lia. rewrite zsum_0. cbv beta. change (0 =? 0) with true. cbv iota. lia.
  - rewrite zsum_succ, IH by lia. cbv beta. destruct (Z.eqb_spec (k + 1) 0); [lia|]. replace (k + 1 - 1) with k by lia. lia.
Qed.
Lemma stored_index b (e : Z -> Z -> Z) (num : Z -> Z) n t : 0 < b -> 0 <= n -> 0 <= t -> (forall i, 1 <= num i) ->
  let last i := e i (num i - 1) in
  let d i t := (e i t - (if t =? 0 then before last i else e i (t - 1))) mod b in
  (zsum n (fun i => zsum (num i) (d i)) + zsum (t + 1) (d n)) mod b = e n t mod b.
Proof.
  intros Hb Hn Ht Hnum last d.
  assert (forall i t, 0 <= t -> zsum (t + 1) (d i) mod b = (e i t - before last i) mod b) as A by (intros i u Hu; exact (zsum_from b (before last i) (e i) u Hb Hu)).
  assert (zsum n (fun i => zsum (num i) (d i)) mod b = before last n mod b) as B.
  { rewrite <- zsum_mod by lia. rewrite (zsum_ext _ _ (fun i => (last i - before last i) mod b)).
    - rewrite zsum_mod by lia. rewrite zsum_steps by lia. reflexivity.
    - intros i Hi. specialize (Hnum i). replace (num i) with (num i - 1 + 1) by lia. rewrite A by lia. reflexivity. }
  rewrite Z.add_mod by lia. rewrite B, A by lia. rewrite <- Z.add_mod by lia. f_equal. lia.
Qed.
Lemma tiles_pos e : 0 <= e < 8 -> 1 <= num_tiles e.
Proof. intros He. destruct (eight_values e He) as [E|[E|[E|[E|[E|[E|[E|E]]]]]]]; rewrite E; vm_compute; congruence. Qed.
Lemma tile_range e k : 0 <= e < 8 -> 0 <= k < 4 -> 0 <= tile_of e k < num_tiles e.
Proof.
  intros He Hk. destruct (four_values k Hk) as [K|[K|[K|K]]]; rewrite K; destruct (eight_values e He) as [E|[E|[E|[E|[E|[E|[E|E]]]]]]]; rewrite E; vm_compute; split; congruence.
Qed.
Lemma stored_end p n t : 0 < pl_ends (plane_at planes p) -> 0 <= n -> 0 <= t -> end_index planes D p n t = ch_end (at_ n) p t mod pl_ends (plane_at planes p).
Proof.
  intros HE Hn Ht. unfold end_index.
  pose proof (stored_index (pl_ends (plane_at planes p)) (fun n => ch_end (at_ n) p) (fun n => num_tiles (ch_cut (at_ n) mod 8)) n t HE Hn Ht) as S.
  cbv zeta in S. rewrite <- S by (intros i; apply tiles_pos, Z.mod_pos_bound; lia). f_equal. f_equal. apply zsum_ext. intros i Hi. rewrite stored_cut. reflexivity.
Qed.
Lemma stored_sel p n k : 0 < pl_sels (plane_at planes p) -> 0 <= n -> 0 <= k -> sel_index planes D p n k = ch_sel (at_ n) p k mod pl_sels (plane_at planes p).
Proof.
  intros HE Hn Ht. unfold sel_index.
  pose proof (stored_index (pl_sels (plane_at planes p)) (fun n => ch_sel (at_ n) p) (fun n => 4) n k HE Hn Ht) as S.
  cbv zeta in S. rewrite <- S by (intros; lia). reflexivity.
Qed.
Lemma stored_block n k : 0 <= n -> 0 <= k < 4 -> fits_palettes planes (at_ n) -> chunk_block planes D n k = drawn planes (at_ n) k.
Proof.
  intros Hn Hk [FC FP]. unfold chunk_block, drawn. rewrite !flat_map_concat_map. f_equal. apply map_ext_in. intros p I. unfold plane_nos in I. apply in_zrange in I.
  destruct (FP p I) as [FE FS]. rewrite stored_cut. rewrite (Z.mod_small (ch_cut _)) by lia. pose proof (tile_range _ k FC Hk) as T. specialize (FE _ T). specialize (FS k Hk).
  rewrite stored_end, stored_sel by lia. rewrite !Z.mod_small by lia. reflexivity.
Qed.
Lemma chunk_at_no f x y : 0 <= x < chunk_cols W -> 0 <= y < chunk_rows H -> at_ (chunk_no W H f x y) = P f x y.
Proof.
  intros Hx Hy. unfold chunk_at, chunk_no. cbv zeta. set (cc := chunk_cols W) in *. set (cr := chunk_rows H) in *.
  set (s := if Z.odd y then cc - 1 - x else x). assert (0 <= s < cc) as Hs by (unfold s; destruct (Z.odd y); lia).
  rewrite Z.div_add_l by lia. rewrite (Z.div_small s), Z.add_0_r by lia. rewrite (Z.add_comm (_ * cc)), Z.mod_add, (Z.mod_small s) by lia.
  rewrite Z.div_add_l by lia. rewrite (Z.div_small y), Z.add_0_r by lia. rewrite (Z.add_comm (f * cr)), Z.mod_add, (Z.mod_small y) by lia.
  unfold s. destruct (Z.odd y); f_equal; lia.
Qed.
Lemma half_range a n : 0 <= a < n -> 0 <= a / 2 < (n + 1) / 2.
Proof.
  intros Ha. split; [apply Z.div_pos; lia|]. pose proof (Z.div_mod a 2 ltac:(lia)). pose proof (Z.mod_pos_bound a 2 ltac:(lia)). pose proof (Z.div_mod (n + 1) 2 ltac:(lia)). pose proof (Z.mod_pos_bound (n + 1) 2 ltac:(lia)). lia.
Qed.
Lemma stored_picture : level_blocks planes D W H faces = chunk_picture planes P W H faces.
Proof.
  unfold level_blocks, chunk_picture. rewrite !flat_map_concat_map. f_equal. apply map_ext_in. intros q I. apply in_zrange in I. cbv zeta. unfold level_block.
  set (x := q mod W). set (y := (q / W) mod H).
  assert (0 <= x < W) as Hx by (apply Z.mod_pos_bound; lia). assert (0 <= y < H) as Hy by (apply Z.mod_pos_bound; lia).
  assert (0 <= q / W / H < faces) as Q2. { apply div_range; [lia|]. apply div_range; lia. }
  pose proof (half_range x W Hx) as X2. pose proof (half_range y H Hy) as Y2. pose proof (Z.mod_pos_bound x 2 ltac:(lia)). pose proof (Z.mod_pos_bound y 2 ltac:(lia)).
  rewrite stored_block; [|unfold chunk_no|lia|]; rewrite ?chunk_at_no by assumption; [reflexivity| |apply Fit; assumption].
  fold (chunk_cols W) in X2. fold (chunk_rows H) in Y2. 
  assert (0 <= q / W / H * chunk_rows H) as G by (apply Z.mul_nonneg_nonneg; lia).
  assert (0 <= (q / W / H * chunk_rows H + y / 2) * chunk_cols W) as G2 by (apply Z.mul_nonneg_nonneg; lia).
  destruct (Z.odd (y / 2)); lia.
Qed.
Lemma first_fits : fits_palettes planes (P 0 0 0).
Proof. apply Fit; [lia| |]; (split; [lia|]); [unfold chunk_cols|unfold chunk_rows]; apply Z.div_str_pos; lia. Qed.
Lemma planes_pos p : 0 <= p < zlen planes -> 0 < pl_ends (plane_at planes p) /\ 0 < pl_sels (plane_at planes p).
Proof.
  intros Hp. destruct first_fits as [FC FP]. destruct (FP p Hp) as [FE FS]. specialize (FE 0 ltac:(pose proof (tiles_pos _ FC); lia)). specialize (FS 0 ltac:(lia)). lia.
Qed.
Lemma stored_group g : 0 <= group D g < 512.
Proof. unfold stored_level. cbn [group]. pose proof (Z.mod_pos_bound (ch_cut (at_ (3 * g))) 8 ltac:(lia)). pose proof (Z.mod_pos_bound (ch_cut (at_ (3 * g + 1))) 8 ltac:(lia)). pose proof (Z.mod_pos_bound (ch_cut (at_ (3 * g + 2))) 8 ltac:(lia)). lia. Qed.
Lemma stored_sensible : sensible planes D.
Proof.
  split; [exact stored_group|]. split; intros p n t Hp; destruct (planes_pos p Hp); unfold stored_level; cbn [d_end d_sel]; apply Z.mod_pos_bound; assumption.
Qed.
Lemma stored_symbols kv : (forall p, 0 <= p < zlen planes -> pl_ends (plane_at planes p) <= 8192 /\ pl_sels (plane_at planes p) <= 8192) ->
  In kv (level_symbols planes D W H faces) -> 0 <= snd kv < 8192.
Proof.
  intros Hs I. unfold level_symbols in I. apply in_flat_map in I. destruct I as (n & _ & I). unfold chunk_symbols in I. destruct stored_sensible as (_ & SE & SS).
  apply in_app_or in I. destruct I as [I|I]; [|apply in_app_or in I; destruct I as [I|I]].
  - destruct (n mod 3 =? 0); [|destruct I]. destruct I as [<-|[]]. cbn [snd]. pose proof (stored_group (n / 3)). lia.
  - apply in_flat_map in I. destruct I as (p & Ip & I). apply in_map_iff in I. destruct I as (t & <- & _). unfold plane_nos in Ip. apply in_zrange in Ip. cbn [snd]. pose proof (SE p n t Ip). destruct (Hs p Ip). lia.
  - apply in_flat_map in I. destruct I as (k & _ & I). apply in_map_iff in I. destruct I as (p & <- & Ip). unfold plane_nos in Ip. apply in_zrange in Ip. cbn [snd]. pose proof (SS p n k Ip). destruct (Hs p Ip). lia.
Qed.
End Level.
