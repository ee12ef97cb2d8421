(** * The stored levels of Unity crunch files. *)
From Verif Require Import Base BaseLemmas ModelCrn SpecCrn SpecCrnHeader SpecCrnLevel SpecCrnFile SpecCrnStore SpecUnity SpecUnityFile SpecUnityStore
  ProofCrnBits ProofCrnHeader ProofCrnGrid ProofCrnLevel ProofCrnFile ProofCrnStore ProofCrnStoreFile ProofUnityGrid ProofUnityPalette ProofUnityStore.

Section Level.
Context (f : Z) (Q : u_palettes) (OK : u_palettes_ok f Q) (P : Z -> Z -> Z -> u_cell) (W H faces : Z) (HW : 1 <= W) (HH : 1 <= H) (HF : 1 <= faces).
Context (Fit : forall g x y, 0 <= g < faces -> 0 <= x < W -> 0 <= y < H -> u_cell_ok f Q (P g x y)).
Notation at_ n := (u_cell_at P W H n).
Notation cols := (u_cols W).
Notation rows := (u_rows H).

Lemma cell_first : u_cell_ok f Q (P 0 0 0).
Proof. apply Fit; lia. Qed.
Lemma cell_at_place g x y : 0 <= x < W -> 0 <= y < H -> at_ (u_place W H g x y) = P g x y.
Proof.
  intros Hx Hy. pose proof (u_cols_bounds W HW) as HC. pose proof (u_rows_bounds H HH) as HR. unfold u_cell_at, u_place. cbv zeta.
  rewrite Z.div_add_l by lia. rewrite (Z.div_small x), Z.add_0_r by lia. rewrite (Z.add_comm (_ * cols)), Z.mod_add, (Z.mod_small x) by lia.
  rewrite Z.div_add_l by lia. rewrite (Z.div_small y), Z.add_0_r by lia. rewrite (Z.add_comm (g * rows)), Z.mod_add, (Z.mod_small y) by lia.
  destruct (Z.ltb_spec x W); [|lia]. destruct (Z.ltb_spec y H); [|lia]. reflexivity.
Qed.
Lemma place_nonneg g x y : 0 <= g -> 0 <= x -> 0 <= y -> 0 <= u_place W H g x y.
Proof. intros. pose proof (u_cols_bounds W HW). pose proof (u_rows_bounds H HH). unfold u_place. apply Z.add_nonneg_nonneg; [apply Z.mul_nonneg_nonneg; [apply Z.add_nonneg_nonneg; [apply Z.mul_nonneg_nonneg|]|]|]; lia. Qed.
(** What is shown, when block [n] is drawn by [block]. *)
Lemma visible_picture (block : Z -> list Z) :
  (forall g x y, 0 <= g < faces -> 0 <= x < W -> 0 <= y < H -> block (u_place W H g x y) = u_draw f Q (P g x y)) ->
  u_visible W H faces block = u_picture f Q P W H faces.
Proof.
  intros B. unfold u_visible, u_picture. apply flat_ext. intros q I. apply in_zrange in I. apply B.
  - apply div_range; [lia|]. apply div_range; lia.
  - apply Z.mod_pos_bound. lia.
  - apply Z.mod_pos_bound. lia.
Qed.

(** ** Without halves *)
Section Plain.
Context (NH : has_halves f = false).
Notation planes := (pal_planes f Q).
Notation D := (stored_plain f Q P W H).
Lemma plain_pos p : 0 <= p < zlen planes -> 0 < pl_ends (plane_at planes p) /\ 0 < pl_sels (plane_at planes p).
Proof. intros Hp. pose proof cell_first as C. unfold u_cell_ok in C. rewrite NH in C. specialize (C p Hp). lia. Qed.
Lemma plain_source n : u_source W D n = 0.
Proof. unfold u_source, stored_plain. cbn [u_ref]. rewrite Z.div_0_l; [reflexivity|]. pose proof (Z.mod_pos_bound (u_col W n) 2 ltac:(lia)). pose proof (Z.mod_pos_bound (u_row W n) 2 ltac:(lia)). apply Z.pow_nonzero; lia. Qed.
Lemma plain_end p n : 0 <= p < zlen planes -> 0 <= n -> u_end_index W planes D p n = uc_end (at_ n) p mod pl_ends (plane_at planes p).
Proof.
  intros Hp Hn. destruct (plain_pos p Hp) as [HE _]. set (b := pl_ends (plane_at planes p)) in *.
  assert (forall k, 0 <= k -> u_end_index W planes D p k = (u_end_index W planes D p (k - 1) + u_end D p k) mod b) as S.
  { intros k Hk. unfold u_end_index. rewrite value_eq at 1; [|exact Hk|].
    - cbv beta. rewrite plain_source. change (0 =? 0) with true. cbv iota. reflexivity.
    - intros g g' G. rewrite plain_source. change (0 =? 0) with true. cbv iota. rewrite G by lia. reflexivity. }
  pattern n. apply natlike_ind; [|intros k Hk IH; change (Z.succ k) with (k + 1)|exact Hn].
  - rewrite S by lia. unfold u_end_index. rewrite value_neg by lia. unfold stored_plain. cbn [u_end]. fold b. unfold before. change (0 =? 0) with true. cbv iota. rewrite Z.add_0_l, Z.sub_0_r. apply Z.mod_mod. lia.
  - rewrite S by lia. replace (k + 1 - 1) with k by lia. rewrite IH. unfold stored_plain. cbn [u_end]. fold b. unfold before. destruct (Z.eqb_spec (k + 1) 0); [lia|]. replace (k + 1 - 1) with k by lia.
    rewrite <- Z.add_mod by lia. f_equal. lia.
Qed.
Lemma plain_block_ok g x y : 0 <= g < faces -> 0 <= x < W -> 0 <= y < H -> u_block W planes D (u_place W H g x y) = u_draw f Q (P g x y).
Proof.
  intros Hg Hx Hy. pose proof (Fit g x y Hg Hx Hy) as C. unfold u_cell_ok in C. rewrite NH in C. unfold u_block, u_draw. rewrite NH. apply flat_ext. intros p I. unfold plane_nos in I. apply in_zrange in I.
  rewrite plain_end by (try lia; apply place_nonneg; lia). unfold stored_plain. cbn [u_sel]. rewrite cell_at_place by lia. destruct (C p I). rewrite !Z.mod_small by lia. reflexivity.
Qed.
Lemma plain_picture : u_visible W H faces (u_block W planes D) = u_picture f Q P W H faces.
Proof. apply visible_picture. exact plain_block_ok. Qed.
Lemma plain_sensible : u_sensible planes D.
Proof.
  split; [intros g; unfold stored_plain; cbn [u_ref]; lia|].
  split; intros p n Hp; destruct (plain_pos p Hp); unfold stored_plain; cbn [u_end u_sel]; apply Z.mod_pos_bound; assumption.
Qed.
Lemma plain_sizes_ok p : n_color_ends Q <= 8192 -> 0 <= p < zlen planes -> pl_ends (plane_at planes p) <= 8192 /\ pl_sels (plane_at planes p) <= 8192.
Proof.
  intros _ Hp. assert (forall q, In q planes -> pl_ends q <= 8192 /\ pl_sels q <= 8192) as A; [|apply A; apply nth_In; unfold zlen in Hp; lia].
  assert (zlen (pal_cs f Q) <= 8192) as LC.
  { destruct (Z.eq_dec (n_color_ends Q) 0) as [E|N]; [unfold pal_cs; cbv zeta; rewrite E; cbn; lia|]. rewrite (len_cs f Q OK N), NH. destruct OK as (_ & ? & _). lia. }
  assert (zlen (pal_al f Q) / 3 <= 8192) as LA.
  { destruct (Z.eq_dec (n_alpha_ends Q) 0) as [E|N]; [unfold pal_al; cbv zeta; rewrite E; cbn; lia|]. rewrite (len_al f Q OK N). destruct OK as (_ & _ & _ & ? & _).
    destruct (Z.eqb_spec f 12) as [E|_]; [subst f; discriminate NH|]. apply Z.lt_succ_r. apply Z.div_lt_upper_bound; [lia|]. destruct (f =? 14); lia. }
  pose proof (len_ce f Q OK) as L1. pose proof (len_ae f Q OK) as L2. destruct OK as (H1 & _ & H3 & _).
  assert (pl_ends (color_plane (pal_ce f Q) (pal_cs f Q)) <= 8192 /\ pl_sels (color_plane (pal_ce f Q) (pal_cs f Q)) <= 8192) as C1 by (unfold color_plane; cbn [pl_ends pl_sels]; lia).
  assert (pl_ends (alpha_plane (pal_ae Q) (pal_al f Q)) <= 8192 /\ pl_sels (alpha_plane (pal_ae Q) (pal_al f Q)) <= 8192) as C2 by (unfold alpha_plane; cbn [pl_ends pl_sels]; lia).
  intros q I. unfold pal_planes, u_planes_of in I. destruct ((f =? 0) || (f =? 13)); [destruct I as [<-|[]]; exact C1|]. destruct (((2 <=? f) && (f <=? 6)) || (f =? 14)); [destruct I as [<-|[<-|[]]]; [exact C2|exact C1]|].
  destruct ((f =? 7) || (f =? 8)); [destruct I as [<-|[<-|[]]]; exact C2|]. destruct (f =? 9); [destruct I as [<-|[]]; exact C2|destruct I].
Qed.
Lemma order_ok p : In p (u_order_of f) -> planes <> [] -> 0 <= p < zlen planes.
Proof.
  unfold u_order_of, pal_planes, u_planes_of. intros I N. destruct ((f =? 0) || (f =? 13)) eqn:E0.
  - assert (((2 <=? f) && (f <=? 6)) || (f =? 14) = false) as E1 by lia. assert ((f =? 7) || (f =? 8) = false) as E2 by lia. rewrite E1, E2 in I. destruct I as [<-|[]]. cbn. lia.
  - destruct (((2 <=? f) && (f <=? 6)) || (f =? 14)); [destruct I as [<-|[<-|[]]]; cbn; lia|]. destruct ((f =? 7) || (f =? 8)); [destruct I as [<-|[<-|[]]]; cbn; lia|]. destruct (f =? 9); [destruct I as [<-|[]]; cbn; lia|contradiction N; reflexivity].
Qed.
Lemma plain_symbols kv : planes <> [] -> In kv (u_level_symbols W H faces planes (u_order_of f) D) -> 0 <= snd kv < 8192.
Proof.
  intros N I. unfold u_level_symbols in I. apply in_flat_map in I. destruct I as (n & _ & I). destruct plain_sensible as (S0 & S1 & S2). assert (n_color_ends Q <= 8192) as L by (destruct OK; lia).
  unfold u_block_symbols in I. apply in_app_or in I. destruct I as [I|I]; [|apply in_app_or in I; destruct I as [I|I]].
  - destruct (_ && _); [|destruct I]. destruct I as [<-|[]]. cbn [snd]. specialize (S0 (u_square W n)). lia.
  - rewrite plain_source in I. change (0 =? 0) with true in I. cbv iota in I. apply in_map_iff in I. destruct I as (p & <- & I). pose proof (order_ok p I N) as Hp. cbn [snd]. specialize (S1 p n Hp). destruct (plain_sizes_ok p L Hp). lia.
  - apply in_map_iff in I. destruct I as (p & <- & I). pose proof (order_ok p I N) as Hp. cbn [snd]. specialize (S2 p n Hp). destruct (plain_sizes_ok p L Hp). lia.
Qed.
End Plain.

(** ** With halves *)
Section Halves.
Context (YH : has_halves f = true).
Notation E := (stored_halves f Q P W H).
Notation wa := (f =? 12).
Notation c := (color_no f).
Notation ce := (pal_ce f Q).
Notation cs := (pal_cs f Q).
Notation ae := (pal_ae Q).
Notation al := (pal_al f Q).
Notation ne := (n_color_ends Q).

Lemma halves_pos : 0 < ne /\ 0 < n_color_sels Q /\ (f = 12 -> 0 < n_alpha_ends Q /\ 0 < n_alpha_sels Q).
Proof. pose proof cell_first as C. unfold u_cell_ok in C. rewrite YH in C. destruct C as (C1 & C2 & C3 & C4 & C5). split; [lia|]. split; [lia|]. intros EF. specialize (C5 EF). lia. Qed.
Lemma second_code_range n : 1 <= second_code P W H n <= 2.
Proof. unfold second_code. destruct (_ =? _); lia. Qed.
Lemma pair_upper n : 0 <= n -> 2 * (e_pair W n / cols) * cols + e_pair W n mod cols = n - u_row W n mod 2 * cols.
Proof.
  intros Hn. pose proof (u_cols_bounds W HW) as HC. unfold e_pair, u_row, u_col. pose proof (Z.mod_pos_bound n cols ltac:(lia)) as HM. pose proof (Z.div_mod n cols ltac:(lia)) as DM.
  rewrite Z.div_add_l by lia. rewrite (Z.div_small (n mod cols)), Z.add_0_r by lia. rewrite (Z.add_comm (n / cols / 2 * cols)), Z.mod_add, Z.mod_mod by lia.
  pose proof (Z.div_mod (n / cols) 2 ltac:(lia)) as D2. replace (2 * (n / cols / 2)) with (n / cols - n / cols mod 2) by lia. lia.
Qed.
Lemma halves_ref n : 0 <= n -> e_source W E n = 0 /\ e_second W E n = second_code P W H n.
Proof.
  intros Hn. unfold e_source, e_second. pose proof (pair_upper n Hn) as U.
  assert (e_ref E (e_pair W n) = 16 * second_code P W H (n - u_row W n mod 2 * cols) + 64 * second_code P W H (n - u_row W n mod 2 * cols + cols)) as R.
  { unfold stored_halves. cbn [e_ref]. rewrite U. reflexivity. }
  rewrite R. clear R U. assert (u_row W n mod 2 = 0 \/ u_row W n mod 2 = 1) as [G|G] by (pose proof (Z.mod_pos_bound (u_row W n) 2 ltac:(lia)); lia); rewrite G.
  - replace (n - 0 * cols) with n by lia. pose proof (second_code_range n) as R1. pose proof (second_code_range (n + cols)) as R2. set (a := second_code P W H n) in *. set (b := second_code P W H (n + cols)) in *. clearbody a b.
    assert (a = 1 \/ a = 2) as [-> | ->] by lia; assert (b = 1 \/ b = 2) as [-> | ->] by lia; split; reflexivity.
  - replace (n - 1 * cols + cols) with n by lia. pose proof (second_code_range n) as R1. pose proof (second_code_range (n - 1 * cols)) as R2. set (a := second_code P W H n) in *. set (b := second_code P W H (n - 1 * cols)) in *. clearbody a b.
    assert (a = 1 \/ a = 2) as [-> | ->] by lia; assert (b = 1 \/ b = 2) as [-> | ->] by lia; split; reflexivity.
Qed.
Lemma halves_flip n : 0 <= n -> 0 <= uc_flip (at_ n) < 2 -> e_flip W E n = uc_flip (at_ n).
Proof. intros Hn Hf. unfold e_flip. destruct (halves_ref n Hn) as [_ ->]. unfold second_code. destruct (Z.eqb_spec (uc_flip (at_ n)) 1); [cbn; lia|cbn; lia]. Qed.
Lemma halves_colors n : 0 <= n -> e_colors W ce E n = (uc_end (at_ n) c mod ne, uc_second (at_ n) mod ne).
Proof.
  intros Hn. destruct halves_pos as (NE & _). pose proof (len_ce f Q OK) as LC.
  assert (forall k, 0 <= k -> e_colors W ce E k =
     ((snd (e_colors W ce E (k - 1)) + e_end E k) mod ne, ((snd (e_colors W ce E (k - 1)) + e_end E k) mod ne + e_end2 E k) mod ne)) as S.
  { intros k Hk. destruct (halves_ref k Hk) as [S1 S2]. assert (second_code P W H k =? 0 = false) as S3 by (pose proof (second_code_range k); lia). unfold e_colors. rewrite value_eq at 1; [|exact Hk|].
    - cbv beta zeta. rewrite S1, S2, S3, LC. change (0 =? 0) with true. cbv iota. reflexivity.
    - intros g g' G. cbv zeta. rewrite S1, S2, S3. change (0 =? 0) with true. cbv iota. rewrite G by lia. reflexivity. }
  assert (forall k a, 0 <= k -> a mod ne = before (fun n' => uc_second (at_ n')) k mod ne ->
     ((a + e_end E k) mod ne, ((a + e_end E k) mod ne + e_end2 E k) mod ne) = (uc_end (at_ k) c mod ne, uc_second (at_ k) mod ne)) as T.
  { intros k a Hk HA. unfold stored_halves. cbn [e_end e_end2].
    assert ((a + (uc_end (at_ k) c - before (fun n' => uc_second (at_ n')) k) mod ne) mod ne = uc_end (at_ k) c mod ne) as ->.
    { rewrite Z.add_mod, HA, Z.mod_mod, <- Z.add_mod by lia. f_equal. lia. }
    f_equal. rewrite <- Z.add_mod by lia. f_equal. lia. }
  pattern n. apply natlike_ind; [|intros k Hk IH; change (Z.succ k) with (k + 1)|exact Hn].
  - rewrite S by lia. apply T; [lia|]. unfold e_colors. rewrite value_neg by lia. reflexivity.
  - rewrite S by lia. apply T; [lia|]. replace (k + 1 - 1) with k by lia. rewrite IH. cbn [snd]. unfold before. destruct (Z.eqb_spec (k + 1) 0); [lia|]. replace (k + 1 - 1) with k by lia. apply Z.mod_mod. lia.
Qed.
Lemma halves_alpha n : f = 12 -> 0 <= n -> e_alpha_index W ae E n = uc_end (at_ n) 0 mod n_alpha_ends Q.
Proof.
  intros EF Hn. destruct halves_pos as (_ & _ & NA). destruct (NA EF) as [NA1 _]. pose proof (len_ae f Q OK) as LC. set (b := n_alpha_ends Q) in *.
  assert (forall k, 0 <= k -> e_alpha_index W ae E k = (e_alpha_index W ae E (k - 1) + e_alpha E k) mod b) as S.
  { intros k Hk. destruct (halves_ref k Hk) as [S1 _]. unfold e_alpha_index. rewrite value_eq at 1; [|exact Hk|].
    - cbv beta. rewrite S1, LC. change (0 =? 0) with true. cbv iota. reflexivity.
    - intros g g' G. rewrite S1. change (0 =? 0) with true. cbv iota. rewrite G by lia. reflexivity. }
  pattern n. apply natlike_ind; [|intros k Hk IH; change (Z.succ k) with (k + 1)|exact Hn].
  - rewrite S by lia. unfold e_alpha_index. rewrite value_neg by lia. unfold stored_halves. cbn [e_alpha]. fold b. unfold before. change (0 =? 0) with true. cbv iota. rewrite Z.add_0_l, Z.sub_0_r. apply Z.mod_mod. lia.
  - rewrite S by lia. replace (k + 1 - 1) with k by lia. rewrite IH. unfold stored_halves. cbn [e_alpha]. fold b. unfold before. destruct (Z.eqb_spec (k + 1) 0); [lia|]. replace (k + 1 - 1) with k by lia.
    rewrite <- Z.add_mod by lia. f_equal. lia.
Qed.
Lemma halves_block_ok g x y : 0 <= g < faces -> 0 <= x < W -> 0 <= y < H -> e_block W wa ce cs ae al E (u_place W H g x y) = u_draw f Q (P g x y).
Proof.
  intros Hg Hx Hy. pose proof (Fit g x y Hg Hx Hy) as C. unfold u_cell_ok in C. rewrite YH in C. destruct C as (C1 & C2 & C3 & C4 & C5).
  pose proof (place_nonneg g x y ltac:(lia) ltac:(lia) ltac:(lia)) as PN. pose proof (cell_at_place g x y Hx Hy) as CA. set (n := u_place W H g x y) in *.
  pose proof (halves_colors n PN) as HC. pose proof (halves_flip n PN ltac:(rewrite CA; lia)) as FL. rewrite CA in HC, FL. rewrite !Z.mod_small in HC by lia.
  unfold e_block, u_draw. rewrite YH. f_equal.
  - destruct (Z.eqb_spec f 12) as [EF|_]; [|reflexivity]. destruct (C5 EF) as [C6 C7]. pose proof (halves_alpha n EF PN) as HA. rewrite CA in HA. rewrite Z.mod_small in HA by lia.
    unfold e_alpha_part. cbv zeta. rewrite HA, FL. f_equal. unfold stored_halves. cbn [e_asel]. rewrite CA. rewrite Z.mod_small by lia. cbn [flat_map]. rewrite app_nil_r.
    replace (3 * (2 * uc_sel (P g x y) 0 + uc_flip (P g x y))) with (6 * uc_sel (P g x y) 0 + 3 * uc_flip (P g x y)) by lia. rewrite Z.add_0_r. reflexivity.
  - unfold e_color_part. rewrite HC, FL. cbn [fst snd]. unfold stored_halves. cbn [e_sel]. rewrite CA. rewrite Z.mod_small by lia. reflexivity.
Qed.
Lemma halves_picture : u_visible W H faces (e_block W wa ce cs ae al E) = u_picture f Q P W H faces.
Proof. apply visible_picture. exact halves_block_ok. Qed.
Lemma head_bytes v : (forall k, 0 <= k < 4 -> 0 <= v k < 256) -> forall k, 0 <= k < 4 -> color_byte (digits 256 4 v) k = v k.
Proof.
  intros Hv k Hk. rewrite four_digits. unfold color_byte. pose proof (Hv 0 ltac:(lia)). pose proof (Hv 1 ltac:(lia)). pose proof (Hv 2 ltac:(lia)). pose proof (Hv 3 ltac:(lia)).
  assert (k = 0 \/ k = 1 \/ k = 2 \/ k = 3) as [-> |[-> |[-> | ->]]] by lia; change (256 ^ 0) with 1; change (256 ^ 1) with 256; change (256 ^ 2) with 65536; change (256 ^ 3) with 16777216.
  - rewrite Z.div_1_r. replace (v 0 + v 1 * 256 + v 2 * 65536 + v 3 * 16777216) with (v 0 + (v 1 + v 2 * 256 + v 3 * 65536) * 256) by lia. rewrite Z.mod_add by lia. apply Z.mod_small. lia.
  - replace (v 0 + v 1 * 256 + v 2 * 65536 + v 3 * 16777216) with (v 0 + (v 1 + (v 2 + v 3 * 256) * 256) * 256) by lia. rewrite Z.div_add, Z.div_small, Z.add_0_l, Z.mod_add by lia. apply Z.mod_small. lia.
  - replace (v 0 + v 1 * 256 + v 2 * 65536 + v 3 * 16777216) with (v 0 + v 1 * 256 + (v 2 + v 3 * 256) * 65536) by lia. rewrite Z.div_add, Z.div_small, Z.add_0_l, Z.mod_add by lia. apply Z.mod_small. lia.
  - rewrite Z.div_add, Z.div_small, Z.add_0_l by lia. apply Z.mod_small. lia.
Qed.
Lemma halves_etc : is_etc f = true.
Proof. unfold is_etc, has_halves in *. lia. Qed.
Lemma halves_sensible : e_sensible wa ce cs ae al E.
Proof.
  destruct halves_pos as (NE & NS & NA). pose proof (len_ce f Q OK) as LC. pose proof (len_cs f Q OK ltac:(lia)) as LS. rewrite YH in LS. unfold e_sensible. rewrite LC, LS.
  split; [|split; [|split; [|split; [|split]]]]. 6:{
    apply Forall_forall. intros v I. unfold pal_ce in I. apply in_map_iff in I. destruct I as (i & <- & I). apply in_zrange in I. cbv zeta. rewrite YH.
    destruct OK as (_ & _ & _ & _ & C1 & _). rewrite halves_etc in C1. unfold component_size in C1. rewrite halves_etc in C1.
    pose proof (C1 i 0 I ltac:(lia)) as V0. pose proof (C1 i 1 I ltac:(lia)) as V1. pose proof (C1 i 2 I ltac:(lia)) as V2. pose proof (C1 i 3 I ltac:(lia)) as V3. cbn [Z.eqb Pos.eqb] in V0, V1, V2, V3.
    assert (forall k, 0 <= k < 4 -> 0 <= v_color_ends Q i k < 256) as B by (intros k Hk; specialize (C1 i k I Hk); destruct (k =? 3); lia).
    rewrite !(head_bytes _ B) by lia. rewrite four_digits. change (2 ^ 24) with 16777216. rewrite Z.div_add, Z.div_small by lia. lia. }
  - intros g. unfold stored_halves. cbn [e_ref]. match goal with |- context [16 * second_code P W H ?a + 64 * second_code P W H ?b] => pose proof (second_code_range a); pose proof (second_code_range b) end. lia.
  - intros n. unfold stored_halves. cbn [e_end]. apply Z.mod_pos_bound. lia.
  - intros n. unfold stored_halves. cbn [e_end2]. apply Z.mod_pos_bound. lia.
  - intros n. unfold stored_halves. cbn [e_sel]. match goal with |- context [?a mod ?b] => pose proof (Z.mod_pos_bound a b ltac:(lia)) end. lia.
  - intros E12. apply Z.eqb_eq in E12. destruct (NA E12) as [NA1 NA2]. pose proof (len_ae f Q OK) as LA. pose proof (len_al f Q OK ltac:(lia)) as LL. rewrite E12 in LL at 2. change (12 =? 12) with true in LL. cbv iota in LL. rewrite LA, LL.
    split; intros n; unfold stored_halves; cbn [e_alpha e_asel]; match goal with |- context [?a mod ?b] => pose proof (Z.mod_pos_bound a b ltac:(lia)) end; lia.
Qed.
Lemma halves_symbols kv : In kv (e_level_symbols W H faces wa E) -> 0 <= snd kv < 8192.
Proof.
  intros I. unfold e_level_symbols in I. apply in_flat_map in I. destruct I as (n & _ & I). destruct halves_sensible as (S0 & S1 & S2 & S3 & S4 & _).
  destruct halves_pos as (NE & NS & NA). pose proof (len_ce f Q OK) as LC. pose proof (len_cs f Q OK ltac:(lia)) as LS. rewrite YH in LS. rewrite LC in S1, S2. rewrite LS in S3. destruct OK as (B1 & B2 & B3 & B4 & _).
  specialize (S0 (e_pair W n)). specialize (S1 n). specialize (S2 n). specialize (S3 n).
  assert (forall kv, In kv (if wa then [(AlphaEnd, e_alpha E n)] else []) -> 0 <= snd kv < 8192) as A1.
  { intros kv' J. destruct (Z.eqb_spec f 12) as [E12|_]; [|destruct J]. destruct (S4 eq_refl) as [S5 _]. rewrite (len_ae f Q OK) in S5. specialize (S5 n). destruct J as [<-|[]]. cbn [snd]. lia. }
  assert (forall kv, In kv (if wa then [(AlphaSel, e_asel E n)] else []) -> 0 <= snd kv < 8192) as A2.
  { intros kv' J. destruct (Z.eqb_spec f 12) as [E12|_]; [|destruct J]. destruct (NA E12) as [NA1 NA2]. destruct (S4 eq_refl) as [_ S5]. rewrite (len_al f Q OK ltac:(lia)) in S5. replace (f =? 12) with true in S5 by lia. cbv iota in S5. specialize (S5 n). destruct J as [<-|[]]. cbn [snd]. lia. }
  unfold e_block_symbols in I. apply in_app_or in I. destruct I as [I|I]; [|apply in_app_or in I; destruct I as [I|I]].
  - destruct (_ =? 0); [|destruct I]. destruct I as [<-|[]]. cbn [snd]. lia.
  - destruct (_ =? 0); [|destruct I]. destruct I as [<-|I]; [cbn [snd]; lia|exact (A1 kv I)].
  - destruct I as [<-|I]; [cbn [snd]; lia|]. apply in_app_or in I. destruct I as [I|I]; [exact (A2 kv I)|]. destruct (_ =? 0); [destruct I|]. destruct I as [<-|[]]. cbn [snd]. lia.
Qed.
End Halves.
End Level.
