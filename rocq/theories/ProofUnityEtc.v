(** * Proofs about the unpackers of ETC levels with two colours per block. *)
From Verif Require Import Base BaseLemmas ModelCrn ModelCrunch ModelUnity SpecCrn SpecCrnLevel SpecUnity
  ProofHuff ProofCrnIndex ProofCrnGrid ProofCrnLevel ProofUnityGrid ProofUnityLevel.

(** ** The head of a block *)
Definition good_color (v : Z) : Prop :=
  0 <= v /\ color_byte v 0 < 32 /\ color_byte v 1 < 32 /\ color_byte v 2 < 32 /\ v / 2 ^ 24 < 8.

Lemma le4_bytes v : le4 v = [color_byte v 0; color_byte v 1; color_byte v 2; color_byte v 3].
Proof.
  unfold le4, color_byte, u8. rewrite !shr_div by lia. change (256 ^ 0) with 1. rewrite Z.div_1_r. reflexivity.
Qed.

Lemma half_byte_table : all_below 32 (fun a => Z.land (u8 (Z.shiftl a 3)) 240 =? a / 2 * 16) = true.
Proof. vm_compute. reflexivity. Qed.
Lemma half_byte a b : 0 <= a < 32 -> 0 <= b < 32 -> Z.lor (Z.land (u8 (Z.shiftl a 3)) 0xF0) (Z.shiftr b 1) = a / 2 * 16 + b / 2.
Proof.
  intros Ha Hb. change 0xF0 with 240. rewrite (proj1 (Z.eqb_eq _ _) (all_below_spec _ _ half_byte_table a Ha)).
  rewrite shr_div by lia. change (2 ^ 1) with 2. change 16 with (2 ^ 4). apply lor_add; [lia|].
  split; [apply Z.div_pos; lia|]. apply Z.div_lt_upper_bound; lia.
Qed.
Lemma diff_byte a b : 0 <= a < 32 -> Z.lor (u8 (Z.shiftl a 3)) (u8 (Z.land (b - a) 7)) = a * 8 + (b - a) mod 8.
Proof.
  intros Ha. change 7 with (Z.ones 3). rewrite Z.land_ones by lia. change (2 ^ 3) with 8.
  pose proof (Z.mod_pos_bound (b - a) 8 ltac:(lia)) as B. rewrite shl_mul by lia. unfold u8. rewrite !Z.mod_small by lia.
  change (a * 2 ^ 3) with (a * 2 ^ 3). rewrite lor_add by lia. reflexivity.
Qed.
Lemma tables_byte_table : all_below 8 (fun a => all_below 8 (fun b => all_below 2 (fun d => all_below 2 (fun f =>
  Z.lor (Z.lor (Z.lor (u8 (Z.shiftl a 5)) (u8 (Z.shiftl b 2))) (Z.shiftl d 1)) f =? a * 32 + b * 4 + 2 * d + f)))) = true.
Proof. vm_compute. reflexivity. Qed.
Lemma tables_byte a b (d : bool) f : 0 <= a < 8 -> 0 <= b < 8 -> 0 <= f < 2 ->
  Z.lor (Z.lor (Z.lor (u8 (Z.shiftl a 5)) (u8 (Z.shiftl b 2))) (Z.shiftl (if d then 1 else 0) 1)) f = a * 32 + b * 4 + (if d then 2 else 0) + f.
Proof.
  intros Ha Hb Hf. pose proof tables_byte_table as T.
  pose proof (all_below_spec _ _ T a Ha) as T1. cbv beta in T1. pose proof (all_below_spec _ _ T1 b Hb) as T2. cbv beta in T2.
  pose proof (all_below_spec _ _ T2 (if d then 1 else 0) ltac:(destruct d; lia)) as T3. cbv beta in T3.
  pose proof (all_below_spec _ _ T3 f Hf) as T4. cbv beta in T4. apply Z.eqb_eq in T4. rewrite T4. destruct d; lia.
Qed.

Lemma etc_diff_ok m a0 a1 a2 a3 b0 b1 b2 b3 : 0 <= a0 < 32 -> 0 <= a1 < 32 -> 0 <= a2 < 32 -> 0 <= b0 < 32 -> 0 <= b1 < 32 -> 0 <= b2 < 32 ->
  let cl a b := (-4 <=? b - a) && (b - a <=? 3) in
  etc_diff m [a0; a1; a2; a3] [b0; b1; b2; b3] = Ok (cl a0 b0 && cl a1 b1 && cl a2 b2).
Proof.
  intros A0 A1 A2 B0 B1 B2 cl. unfold etc_diff, for_range. change (zrange 0 3) with [0; 1; 2]. cbn [for_list].
  assert (forall a b, 0 <= a < 32 -> 0 <= b < 32 ->
    (let* a3 := ua m 8 (a + 3) in if b <=? a3 then let* b4 := ua m 8 (b + 4) in Ok (a <=? b4) else Ok false) = Ok (cl a b)) as K.
  { intros a b Ha Hb. rewrite ua_ok by lia. cbn [bind]. unfold cl. destruct (Z.leb_spec b (a + 3)).
    - rewrite ua_ok by lia. cbn [bind]. f_equal. destruct (Z.leb_spec a (b + 4)), (Z.leb_spec (-4) (b - a)), (Z.leb_spec (b - a) 3); cbn [andb]; try reflexivity; lia.
    - f_equal. destruct (Z.leb_spec (-4) (b - a)), (Z.leb_spec (b - a) 3); cbn [andb]; try reflexivity; lia. }
  change (idx [a0; a1; a2; a3] 0) with (Ok a0). change (idx [b0; b1; b2; b3] 0) with (Ok b0). cbn [bind]. rewrite K by lia. cbn [bind].
  change (idx [a0; a1; a2; a3] 1) with (Ok a1). change (idx [b0; b1; b2; b3] 1) with (Ok b1). cbn [bind].
  change (idx [a0; a1; a2; a3] 2) with (Ok a2). change (idx [b0; b1; b2; b3] 2) with (Ok b2). cbn [bind].
  rewrite !K by lia. destruct (cl a0 b0); cbn [bind andb]; [|reflexivity]. destruct (cl a1 b1); cbn [bind andb]; reflexivity.
Qed.

Lemma etc_head_ok m a b flip : good_color a -> good_color b -> 0 <= flip < 2 ->
  etc_block_endpoint m (le4 a) (le4 b) flip = Ok (etc_head a b flip) /\ zlen (etc_head a b flip) = 4.
Proof.
  intros (A & A0 & A1 & A2 & A3) (B & B0 & B1 & B2 & B3) Hf. split; [|reflexivity]. unfold etc_block_endpoint. rewrite !le4_bytes.
  assert (forall v c, 0 <= color_byte v c) as P by (intros; apply Z.mod_pos_bound; lia).
  assert (forall v, 0 <= v -> v / 2 ^ 24 < 8 -> color_byte v 3 < 8) as T.
  { intros v Hv Hl. unfold color_byte. change (256 ^ 3) with (2 ^ 24). assert (0 <= v / 2 ^ 24) by (apply Z.div_pos; lia). rewrite Z.mod_small; lia. }
  pose proof (T a A A3) as TA. pose proof (T b B B3) as TB.
  unfold etc_head. set (a0 := color_byte a 0) in *. set (a1 := color_byte a 1) in *. set (a2 := color_byte a 2) in *. set (a3 := color_byte a 3) in *.
  set (b0 := color_byte b 0) in *. set (b1 := color_byte b 1) in *. set (b2 := color_byte b 2) in *. set (b3 := color_byte b 3) in *.
  assert (0 <= a0) by apply P. assert (0 <= a1) by apply P. assert (0 <= a2) by apply P. assert (0 <= a3) by apply P.
  assert (0 <= b0) by apply P. assert (0 <= b1) by apply P. assert (0 <= b2) by apply P. assert (0 <= b3) by apply P.
  rewrite etc_diff_ok by lia. cbn [bind]. unfold close. fold a0 a1 a2 b0 b1 b2. cbv zeta. set (df := (_ && _) && _ && _).
  unfold for_range. change (zrange 0 3) with [0; 1; 2]. cbn [for_list].
  change (idx [a0; a1; a2; a3] 0) with (Ok a0). change (idx [b0; b1; b2; b3] 0) with (Ok b0). cbn [bind].
  change (idx [a0; a1; a2; a3] 1) with (Ok a1). change (idx [b0; b1; b2; b3] 1) with (Ok b1). cbn [bind].
  change (idx [a0; a1; a2; a3] 2) with (Ok a2). change (idx [b0; b1; b2; b3] 2) with (Ok b2). cbn [bind].
  change (idx [a0; a1; a2; a3] 3) with (Ok a3). change (idx [b0; b1; b2; b3] 3) with (Ok b3). cbn [bind].
  rewrite tables_byte by lia. rewrite !diff_byte by lia. rewrite !half_byte by lia. reflexivity.
Qed.

Lemma write_bytes4_ok dst pos b : zlen b = 4 -> 0 <= pos -> 4 * pos + 4 <= zlen dst -> write_bytes4 dst pos b = Ok (put dst (4 * pos) b).
Proof.
  intros L Hp Hl. unfold write_bytes4. rewrite !idx_ok by lia. cbn [bind]. replace (pos * 4) with (4 * pos) by lia.
  rewrite upd_ok by lia. cbn [bind]. rewrite upd_ok by (rewrite zlen_replace; lia). cbn [bind].
  rewrite upd_ok by (rewrite !zlen_replace; lia). cbn [bind]. rewrite upd_ok by (rewrite !zlen_replace; lia). f_equal.
  apply znth_ext; [rewrite !zlen_replace, zlen_put by lia; reflexivity|]. intros i Hi. rewrite !zlen_replace in Hi.
  rewrite znth_put by lia. unfold znth. rewrite !nth_replace by (rewrite ?zlen_replace; lia). fold (znth dst i). rewrite L.
  destruct (Z.eqb_spec i (4 * pos + 3)) as [->|]; [|destruct (Z.eqb_spec i (4 * pos + 2)) as [->|]; [|destruct (Z.eqb_spec i (4 * pos + 1)) as [->|]; [|destruct (Z.eqb_spec i (4 * pos)) as [->|]]]].
  5: { destruct (Z.leb_spec (4 * pos) i), (Z.ltb_spec i (4 * pos + 4)); cbn [andb]; try reflexivity; lia. }
  all: match goal with |- context [?p <=? ?q] => destruct (Z.leb_spec p q); [|lia] end; match goal with |- context [?p <? ?q] => destruct (Z.ltb_spec p q); [|lia] end; cbn [andb].
  all: f_equal; f_equal; lia.
Qed.

(** ** References *)
Lemma reference_table : all_below 256 (fun g =>
  (Z.lor (Z.land g 3) (Z.land (Z.shiftr g 2) 12) =? g mod 4 + 4 * (g / 16 mod 4)) &&
  (Z.lor (Z.land (Z.shiftr g 2) 3) (Z.land (Z.shiftr g 4) 12) =? g / 4 mod 4 + 4 * (g / 64 mod 4))) = true.
Proof. vm_compute. reflexivity. Qed.

Section Etc.
Context (m : build) (u : unpacker) (W H faces : Z).
Hypothesis HW : 1 <= W.
Hypothesis HH : 1 <= H.
Hypothesis HF : 1 <= faces.
Hypothesis HS : faces = 1 \/ H mod 2 = 0.
Hypothesis HM : m = Wrapping \/ W mod 2 = 0.
Notation feeds := (feeds m u).
Notation cols := (u_cols W).
Notation rows := (u_rows H).
Notation place := (u_place W H).
Notation AE := (u_alpha_endpoints u).
Notation AS := (u_alpha_selectors u).
Notation CE := (u_color_endpoints u).
Notation CS := (u_color_selectors u).

Context (with_alpha : bool) (E : e_symbols).
Hypothesis HD : e_sensible with_alpha CE CS AE AS E.
Hypothesis HC : zlen CE < 65536.
Hypothesis HA : with_alpha = true -> zlen AE < 65536 /\ ProofCrnLevel.words AE /\ ProofCrnLevel.words AS.
Notation source := (e_source W E).
Notation second := (e_second W E).
Notation colors := (e_colors W CE E).
Notation alpha := (e_alpha_index W AE E).

Definition e_code (n : Z) : Z := source n + 4 * second n.
Lemma e_code_parts n : Z.land (e_code n) 3 = source n /\ Z.shiftr (e_code n) 2 = second n /\ 0 <= source n < 4 /\ 0 <= second n < 4 /\ u8 (e_code n) = e_code n.
Proof.
  assert (0 <= source n < 4) as S by (apply Z.mod_pos_bound; lia). assert (0 <= second n < 4) as T by (apply Z.mod_pos_bound; lia).
  unfold e_code. rewrite land_3_mod, shr_div by lia. change (2 ^ 2) with 4.
  split; [symmetry; apply Z.mod_unique with (second n); lia|]. split; [symmetry; apply Z.div_unique with (source n); lia|].
  split; [exact S|]. split; [exact T|]. unfold u8. apply Z.mod_small. lia.
Qed.

Lemma ce_pos : 0 < zlen CE.
Proof. destruct HD as (_ & H1 & _). pose proof (H1 0). lia. Qed.
Lemma e_colors_eq n : 0 <= n -> colors n =
  let first := if source n =? 0 then (snd (colors (n - 1)) + e_end E n) mod zlen CE
    else if source n =? 1 then snd (colors (n - 1)) else if source n =? 2 then fst (colors (n - cols)) else snd (colors (n - 1 - cols)) in
  (first, if second n =? 0 then first else (first + e_end2 E n) mod zlen CE).
Proof.
  intros Hn. pose proof (u_cols_bounds W HW) as CB. unfold e_colors at 1. rewrite value_eq; [reflexivity|exact Hn|].
  intros h h' Eq. rewrite !Eq by lia. reflexivity.
Qed.
Lemma e_colors_fst n : 0 <= n -> fst (colors n) =
  if source n =? 0 then (snd (colors (n - 1)) + e_end E n) mod zlen CE
  else if source n =? 1 then snd (colors (n - 1)) else if source n =? 2 then fst (colors (n - cols)) else snd (colors (n - 1 - cols)).
Proof. intros Hn. rewrite (e_colors_eq n Hn). reflexivity. Qed.
Lemma e_colors_snd n : 0 <= n -> snd (colors n) = if second n =? 0 then fst (colors n) else (fst (colors n) + e_end2 E n) mod zlen CE.
Proof. intros Hn. rewrite (e_colors_fst n Hn). rewrite (e_colors_eq n Hn). reflexivity. Qed.
Lemma e_colors_range n : 0 <= fst (colors n) < zlen CE /\ 0 <= snd (colors n) < zlen CE.
Proof.
  pose proof ce_pos as P. unfold e_colors. apply (value_inv (fun v => 0 <= fst v < zlen CE /\ 0 <= snd v < zlen CE)); [cbn [fst snd]; lia|].
  intros h k Ih. cbv zeta. cbn [fst snd].
  assert (0 <= (if source k =? 0 then (snd (h (k - 1)) + e_end E k) mod zlen CE else if source k =? 1 then snd (h (k - 1))
    else if source k =? 2 then fst (h (k - cols)) else snd (h (k - 1 - cols))) < zlen CE) as R.
  { destruct (source k =? 0); [apply Z.mod_pos_bound; lia|]. destruct (source k =? 1); [apply Ih|]. destruct (source k =? 2); apply Ih. }
  split; [exact R|]. destruct (second k =? 0); [exact R|apply Z.mod_pos_bound; lia].
Qed.
Lemma e_alpha_eq n : 0 <= n -> alpha n =
  if source n =? 0 then (alpha (n - 1) + e_alpha E n) mod zlen AE else if source n =? 1 then alpha (n - 1)
  else if source n =? 2 then alpha (n - cols) else alpha (n - 1 - cols).
Proof.
  intros Hn. pose proof (u_cols_bounds W HW) as CB. unfold e_alpha_index at 1. rewrite value_eq; [reflexivity|exact Hn|].
  intros h h' Eq. rewrite !Eq by lia. reflexivity.
Qed.
Lemma e_alpha_range n : with_alpha = true -> 0 <= alpha n < zlen AE.
Proof.
  intros Wa. assert (0 < zlen AE) as P. { destruct HD as (_ & _ & _ & _ & H1 & _). destruct (H1 Wa) as [H2 _]. pose proof (H2 0). lia. }
  unfold e_alpha_index. apply (value_inv (fun v => 0 <= v < zlen AE)); [lia|].
  intros h k Ih. destruct (source k =? 0); [apply Z.mod_pos_bound; lia|]. destruct (source k =? 1); [apply Ih|]. destruct (source k =? 2); apply Ih.
Qed.
Lemma u16_small v n : 0 <= v < n -> n < 65536 -> u16 v = v.
Proof. intros. unfold u16. apply Z.mod_small. lia. Qed.
Lemma e_flip_ok n : Z.lxor (Z.shiftr (second n) 1) 1 = e_flip W E n /\ 0 <= e_flip W E n < 2.
Proof.
  destruct (e_code_parts n) as (_ & _ & _ & S & _). unfold e_flip.
  assert (second n = 0 \/ second n = 1 \/ second n = 2 \/ second n = 3) as [-> |[-> |[-> | ->]]] by lia; (split; [reflexivity|cbn; lia]).
Qed.

(** ** The buffer: two elements per column *)
Definition e_buffer_ok (n : Z) (buf : list elem) : Prop :=
  zlen buf = 2 * cols /\ forall x, 0 <= x < cols ->
    let b := nth (Z.to_nat (2 * x)) buf default_elem in
    let b1 := nth (Z.to_nat (2 * x + 1)) buf default_elem in
    b_color b = fst (colors (last_in W n x)) /\ b_color b1 = snd (colors (last_in W n x)) /\
    (with_alpha = true -> b_alpha0 b = alpha (last_in W n x) /\ b_alpha0 b1 = alpha (last_in W n x)) /\
    (u_row W n mod 2 = 1 -> u_col W n <= x -> b_ref b = e_code (u_row W n * cols + x)) /\
    (u_row W n mod 2 = 0 -> x < u_col W n -> b_ref b = e_code ((u_row W n + 1) * cols + x)).

Lemma e_buffer_start : e_buffer_ok 0 (repeat default_elem (Z.to_nat (Z.shiftl (even_width W) 1))).
Proof.
  unfold even_width. rewrite even_up_land by lia. fold (u_cols W). pose proof (u_cols_bounds W HW) as CB.
  rewrite shl_mul by lia. change (2 ^ 1) with 2. split.
  - unfold zlen. rewrite repeat_length, Z2Nat.id by lia. lia.
  - intros x Hx. cbv zeta.
    assert (forall k, nth k (repeat default_elem (Z.to_nat (cols * 2))) default_elem = default_elem) as K.
    { generalize (Z.to_nat (cols * 2)). induction n as [|n IH]; intros [|k]; cbn [repeat nth]; auto. }
    rewrite !K.
    assert (u_row W 0 = 0) as R0 by (apply Z.div_0_l; lia). assert (u_col W 0 = 0) as C0 by (apply Z.mod_0_l; lia).
    rewrite R0, C0. unfold last_in. rewrite R0, C0. destruct (Z.ltb_spec x 0); [lia|].
    unfold e_colors, e_alpha_index. rewrite !value_neg by lia.
    split; [reflexivity|]. split; [reflexivity|]. split; [intros _; split; reflexivity|]. split; [change (0 mod 2) with 0; lia|lia].
Qed.

Lemma e_buffer_here n buf : 0 <= n -> e_buffer_ok n buf ->
  let b := nth (Z.to_nat (2 * u_col W n)) buf default_elem in
  let b1 := nth (Z.to_nat (2 * u_col W n + 1)) buf default_elem in
  b_color b = fst (colors (n - cols)) /\ b_color b1 = snd (colors (n - cols)) /\
  (with_alpha = true -> b_alpha0 b = alpha (n - cols) /\ b_alpha0 b1 = alpha (n - cols)) /\
  (u_row W n mod 2 = 1 -> b_ref b = e_code n).
Proof.
  intros Hn [L Q]. destruct (coords W HW n) as [En B]. destruct (Q (u_col W n) B) as (Q1 & Q2 & Q3 & Q4 & _).
  rewrite (last_in_here W HW n Hn) in Q1, Q2, Q3. cbv zeta. split; [exact Q1|]. split; [exact Q2|]. split; [exact Q3|].
  intros O. rewrite (Q4 O ltac:(lia)). f_equal. lia.
Qed.

Lemma e_buffer_next n buf b b1 : 0 <= n -> e_buffer_ok n buf ->
  b_color b = fst (colors n) -> b_color b1 = snd (colors n) ->
  (with_alpha = true -> b_alpha0 b = alpha n /\ b_alpha0 b1 = alpha n) ->
  (u_row W n mod 2 = 0 -> b_ref b = e_code (n + cols)) ->
  e_buffer_ok (n + 1) (replace_nth (Z.to_nat (2 * u_col W n + 1)) b1 (replace_nth (Z.to_nat (2 * u_col W n)) b buf)).
Proof.
  intros Hn [L Q] H1 H2 H3 Hr. destruct (coords W HW n) as [En B].
  split; [rewrite !zlen_replace; exact L|]. intros x Hx. rewrite !nth_replace by (rewrite ?zlen_replace; lia). cbv zeta.
  specialize (Q x Hx). cbv zeta in Q. destruct Q as (Q1 & Q2 & Q3 & Q4 & Q5).
  assert ((2 * x =? 2 * u_col W n + 1) = false) as -> by (apply Z.eqb_neq; lia).
  assert ((2 * x + 1 =? 2 * u_col W n) = false) as -> by (apply Z.eqb_neq; lia).
  assert ((2 * x =? 2 * u_col W n) = (x =? u_col W n)) as -> by (destruct (Z.eqb_spec (2 * x) (2 * u_col W n)), (Z.eqb_spec x (u_col W n)); try reflexivity; lia).
  assert ((2 * x + 1 =? 2 * u_col W n + 1) = (x =? u_col W n)) as -> by (destruct (Z.eqb_spec (2 * x + 1) (2 * u_col W n + 1)), (Z.eqb_spec x (u_col W n)); try reflexivity; lia).
  rewrite (last_in_next W HW n x Hn Hx).
  pose proof (Zmod_odd (u_row W n)) as O1. pose proof (Zmod_odd (u_row W n + 1)) as O2. rewrite Z.odd_add in O2. change (Z.odd 1) with true in O2.
  split; [|split; [|split; [|split]]].
  - destruct (x =? u_col W n); assumption.
  - destruct (x =? u_col W n); assumption.
  - destruct (x =? u_col W n); assumption.
  - intros P1 P2. destruct (next_coords W HW n Hn) as [(Ln & E1 & E2)|(Ln & E1 & E2)]; rewrite E1, E2 in *.
    + destruct (Z.eqb_spec x (u_col W n)); [lia|]. apply Q4; [exact P1|lia].
    + assert (u_row W n mod 2 = 0) as Ev by (rewrite O1; rewrite O2 in P1; destruct (Z.odd (u_row W n)); cbn in *; congruence).
      destruct (Z.eqb_spec x (u_col W n)) as [->|N]; [rewrite Hr by exact Ev; f_equal; lia|apply Q5; [exact Ev|lia]].
  - intros P1 P2. destruct (next_coords W HW n Hn) as [(Ln & E1 & E2)|(Ln & E1 & E2)]; rewrite E1, E2 in *; [|lia].
    destruct (Z.eqb_spec x (u_col W n)) as [->|N]; [rewrite Hr by exact P1; f_equal; lia|apply Q5; [exact P1|lia]].
Qed.

Lemma etc_reference_ok msg f x y buf cd rest : 0 <= f < faces -> 0 <= x < cols -> 0 <= y < rows ->
  let n := place f x y in
  e_buffer_ok n buf ->
  feeds cd ((if u_row W n mod 2 =? 0 then [(Chunks, e_ref E (e_pair W n))] else []) ++ rest) ->
  let b := nth (Z.to_nat (2 * x)) buf default_elem in
  exists b' cd', unity_etc_reference m msg u y b cd = Ok (e_code n, b', cd') /\ feeds cd' rest /\
    b_color b' = b_color b /\ b_alpha0 b' = b_alpha0 b /\ (u_row W n mod 2 = 0 -> b_ref b' = e_code (n + cols)).
Proof.
  intros Hf Hx Hy n Bf F b. destruct (place_coords W H HH f x y ltac:(lia) Hx Hy) as (N0 & E1 & E2 & E3). fold n in N0, E1, E2, E3.
  pose proof (Z.mod_pos_bound y 2 ltac:(lia)) as My. pose proof (proj1 HD (e_pair W n)) as RG.
  pose proof (e_buffer_here n buf N0 Bf) as BH. cbv zeta in BH. rewrite E2 in BH. fold b in BH. destruct BH as (_ & _ & _ & BR).
  unfold unity_etc_reference. rewrite land_1_mod. rewrite E3 in F.
  destruct (Z.eqb_spec (y mod 2) 0) as [Ey|Ey].
  - rewrite Ey. cbn [Z.eqb]. cbn [app ProofCrnLevel.feeds fst snd dm_of] in F. destruct F as (cd' & Dc & F). rewrite Dc. cbn [or_err bind]. cbv zeta.
    set (g := e_ref E (e_pair W n)) in *. assert (u8 g = g) as -> by (unfold u8; apply Z.mod_small; lia).
    pose proof (all_below_spec _ _ reference_table g RG) as T. cbv beta in T. apply andb_true_iff in T. destruct T as [T1 T2]. apply Z.eqb_eq in T1. apply Z.eqb_eq in T2.
    rewrite T1, T2. destruct (square_even W H HW HH f x y ltac:(lia) Hx Hy Ey) as (_ & S2 & S3 & _). fold n in S2, S3.
    assert (e_pair W (n + cols) = e_pair W n) as EP.
    { unfold e_pair. rewrite S2, S3. f_equal. f_equal. pose proof (Z.div_mod (u_row W n) 2 ltac:(lia)). symmetry. apply Z.div_unique with 1; lia. }
    assert (u_row W (n + cols) mod 2 = 1) as Er2. { rewrite S2, Z.add_mod, E3, Ey by lia. reflexivity. }
    assert (g mod 4 + 4 * (g / 16 mod 4) = e_code n) as ->.
    { unfold e_code, e_source, e_second. fold g. rewrite E3, Ey. change (4 ^ 0) with 1. rewrite Z.div_1_r. reflexivity. }
    do 2 eexists. split; [reflexivity|]. split; [exact F|]. split; [reflexivity|]. split; [reflexivity|].
    intros _. cbn [set_ref b_ref]. unfold e_code, e_source, e_second. rewrite EP, Er2. reflexivity.
  - assert (y mod 2 = 1) as Ey1 by lia. rewrite Ey1. cbn [Z.eqb app] in *. rewrite BR by lia.
    destruct (e_code_parts n) as (_ & _ & _ & _ & ->). do 2 eexists. split; [reflexivity|]. split; [exact F|]. split; [reflexivity|]. split; [reflexivity|]. lia.
Qed.

Lemma e_advance msg kd N v d cd rest : 0 < N < 65536 -> 0 <= v < N -> 0 <= d < N -> feeds cd ((kd, d) :: rest) ->
  exists cd', unity_advance m msg (dm_of u kd) N v cd = Ok ((v + d) mod N, cd') /\ feeds cd' rest.
Proof.
  intros HN Hv Hd (cd' & Dc & F). cbn [fst snd] in Dc. exists cd'. split; [|exact F]. apply unity_advance_ok; auto. lia.
Qed.

Definition e_from (n : Z) : list (kind * Z) := flat_map (e_block_symbols W with_alpha E) (zrange n (u_blocks W H faces)).
Lemma e_from_cons n : 0 <= n < u_blocks W H faces -> e_from n =
  (if u_row W n mod 2 =? 0 then [(Chunks, e_ref E (e_pair W n))] else []) ++
  (if source n =? 0 then (ColorEnd, e_end E n) :: (if with_alpha then [(AlphaEnd, e_alpha E n)] else []) else []) ++
  (ColorSel, e_sel E n) :: (if with_alpha then [(AlphaSel, e_asel E n)] else []) ++
  (if second n =? 0 then [] else [(ColorEnd, e_end2 E n)]) ++ e_from (n + 1).
Proof.
  intros Hn. unfold e_from. rewrite (zrange_cons n) by lia. cbn [flat_map]. unfold e_block_symbols at 1. rewrite <- !app_assoc. cbn [app]. rewrite <- !app_assoc. reflexivity.
Qed.

Lemma color_part_len n : zlen (e_color_part W CE CS E n) = 8.
Proof. unfold e_color_part. rewrite zlen_app, zlen_le by lia. reflexivity. Qed.
Lemma alpha_part_len n : zlen (e_alpha_part W AE AS E n) = 8.
Proof. unfold e_alpha_part. cbv zeta. rewrite !zlen_app, !zlen_le by lia. reflexivity. Qed.
Lemma ce_good i : 0 <= i < zlen CE -> good_color (znth CE i).
Proof.
  intros Hi. destruct HD as (_ & _ & _ & _ & _ & G). rewrite Forall_forall in G. apply G. unfold znth. apply nth_In. unfold zlen in Hi. lia.
Qed.
Lemma lor_double a b : 0 <= a -> 0 <= b < 2 -> Z.lor (Z.shiftl a 1) b = 2 * a + b.
Proof. intros Ha Hb. rewrite shl_mul by lia. change (2 ^ 1) with (2 ^ 1). rewrite lor_add by lia. lia. Qed.

Lemma lor_double' x : 0 <= x -> Z.lor (2 * x) 1 = 2 * x + 1.
Proof. intros Hx. rewrite <- lor_double by lia. rewrite shl_mul by lia. change (2 ^ 1) with 2. f_equal. lia. Qed.

(** ** ETC1 *)
Section Etc1.
Hypothesis Wa : with_alpha = false.
Hypothesis HZ : (faces * H + 2) * (W + 2) * (4 * 2) <= 2 ^ 48.
Notation blk := (e_block W with_alpha CE CS AE AS E).

Lemma etc1_len n : zlen (blk n) = 4 * 2.
Proof. unfold e_block. rewrite Wa. cbn [app]. apply color_part_len. Qed.

Definition e_etc1_rel (n : Z) (st : Z * Z * list elem * codec * list Z) : Prop :=
  let '(ce, diag, buf, cd, dst) := st in
  ce = snd (colors (n - 1)) /\ diag = snd (colors (n - 1 - cols)) /\ e_buffer_ok n buf /\
  feeds cd (e_from n) /\ u_filled W H faces 2 blk n dst.

Lemma e_etc1_block_ok f x y st : 0 <= f < faces -> 0 <= x < cols -> 0 <= y < rows -> e_etc1_rel (place f x y) st ->
  exists st', unity_etc1_block m u y x ((y <? H) && (x <? W)) (u_visible_no W H f x y * 2) st = Ok st' /\ e_etc1_rel (place f x y + 1) st'.
Proof.
  intros Hf Hx Hy. destruct st as [[[[ce diag] buf] cd] dst]. intros (E1 & E2 & Bf & F & Fl).
  pose proof (place_range W H faces HF f x y Hf Hx Hy) as Rn. destruct (place_coords W H HH f x y ltac:(lia) Hx Hy) as (_ & _ & Ex & _).
  rewrite e_from_cons in F by lia. unfold unity_etc1_block. cbv zeta.
  rewrite shl_mul by lia. change (x * 2 ^ 1) with (x * 2). replace (x * 2) with (2 * x) by lia.
  assert (zlen buf = 2 * cols) as Lb by exact (proj1 Bf).
  rewrite (idx_ok_d default_elem buf (2 * x)) by lia. cbn [bind].
  destruct (etc_reference_ok "Failed to decode ETC1 Texture." f x y buf cd _ Hf Hx Hy Bf F) as (b & cd1 & -> & F1 & Bc & _ & Br). cbn [bind].
  pose proof (e_buffer_here (place f x y) buf ltac:(lia) Bf) as BH. cbv zeta in BH. rewrite Ex in BH. destruct BH as (BH1 & BH2 & _ & _).
  set (n := place f x y) in *. rewrite BH1 in Bc. destruct (e_code_parts n) as (-> & -> & RS & RT & _).
  destruct (e_flip_ok n) as [-> RF]. rewrite Wa in F1. cbn [app] in F1.
  pose proof (e_colors_fst n ltac:(lia)) as Fst. pose proof (e_colors_snd n ltac:(lia)) as Snd.
  destruct (e_colors_range n) as [R1 R2]. pose proof ce_pos as CP.
  destruct HD as (_ & D1 & D2 & D3 & _ & _).
  pose proof (u16_small (fst (colors n)) (zlen CE) R1 HC) as U1. pose proof (u16_small (snd (colors n)) (zlen CE) R2 HC) as U2.
  assert (exists b' cd', (if source n =? 0
     then
      let* (ce, cd) := unity_advance m "Failed to decode ETC1 Texture." (u_endpoint_dm0 u) (zlen CE) ce cd1 in
      Ok (ce, set_color b (u16 ce), cd)
     else if source n =? 1 then Ok (ce, set_color b (u16 ce), cd1)
     else if source n =? 3 then Ok (diag, set_color b (u16 diag), cd1)
     else Ok (b_color b, b, cd1)) = Ok (fst (colors n), b', cd') /\
     b_color b' = fst (colors n) /\ b_ref b' = b_ref b /\
     feeds cd' ((ColorSel, e_sel E n) :: (if second n =? 0 then [] else [(ColorEnd, e_end2 E n)]) ++ e_from (n + 1))) as (b' & cd2 & -> & Bn & Br' & F2).
  { destruct (Z.eqb_spec (source n) 0) as [Es|Es].
    - cbn [app] in F1. subst ce. destruct (e_colors_range (n - 1)) as [_ R3].
      destruct (e_advance "Failed to decode ETC1 Texture." ColorEnd (zlen CE) (snd (colors (n - 1))) (e_end E n) cd1 _ ltac:(lia) R3 (D1 n) F1) as (cd2 & A & F2).
      change (dm_of u ColorEnd) with (u_endpoint_dm0 u) in A. rewrite A. cbn [bind]. rewrite <- Fst.
      do 2 eexists. split; [reflexivity|]. cbn [set_color b_color b_ref]. split; [exact U1|]. split; [reflexivity|exact F2].
    - cbn [app] in F1. destruct (Z.eqb_spec (source n) 1) as [Es1|Es1].
      + do 2 eexists. subst ce. rewrite <- Fst. split; [reflexivity|]. cbn [set_color b_color b_ref]. split; [exact U1|]. split; [reflexivity|exact F1].
      + destruct (Z.eqb_spec (source n) 3) as [Es3|Es3].
        * do 2 eexists. subst diag. rewrite Es3 in Fst. cbn [Z.eqb Pos.eqb] in Fst. rewrite <- Fst. split; [reflexivity|]. cbn [set_color b_color b_ref]. split; [exact U1|]. split; [reflexivity|exact F1].
        * assert (source n = 2) as Es2 by lia. rewrite Es2 in Fst. cbn [Z.eqb Pos.eqb] in Fst. rewrite Bc, <- Fst.
          do 2 eexists. split; [reflexivity|]. split; [congruence|]. split; [reflexivity|exact F1]. }
  cbn [bind]. rewrite upd_ok by lia. cbn [bind]. rewrite idx_ok by lia. cbn [bind].
  destruct F2 as (cd3 & Dc & F3). cbn [fst snd dm_of] in Dc. rewrite Dc. cbn [or_err bind].
  assert (exists cd4, (if negb (second n =? 0) then unity_advance m "Failed to decode ETC1 Texture." (u_endpoint_dm0 u) (zlen CE) (fst (colors n)) cd3 else Ok (fst (colors n), cd3)) =
    Ok (snd (colors n), cd4) /\ feeds cd4 (e_from (n + 1))) as (cd4 & -> & F4).
  { destruct (second n =? 0); cbn [negb app] in *.
    - rewrite Snd. exists cd3. split; [reflexivity|exact F3].
    - destruct (e_advance "Failed to decode ETC1 Texture." ColorEnd (zlen CE) (fst (colors n)) (e_end2 E n) cd3 _ ltac:(lia) R1 (D2 n) F3) as (cd4 & A & F4).
      exists cd4. rewrite Snd. split; [exact A|exact F4]. }
  cbn [bind]. rewrite (lor_double' x) by lia.
  rewrite (idx_ok_d default_elem) by (rewrite zlen_replace; lia). cbn [bind].
  rewrite nth_replace by lia. destruct (Z.eqb_spec (2 * x + 1) (2 * x)); [lia|].
  rewrite upd_ok by (rewrite zlen_replace; lia). cbn [bind]. rewrite idx_ok by lia. cbn [bind].
  assert (e_buffer_ok (n + 1) (replace_nth (Z.to_nat (2 * x + 1)) (set_color (nth (Z.to_nat (2 * x + 1)) buf default_elem) (u16 (snd (colors n))))
    (replace_nth (Z.to_nat (2 * x)) b' buf))) as Bf'.
  { rewrite <- Ex. apply e_buffer_next; [lia|exact Bf|exact Bn|exact U2|rewrite Wa; discriminate|].
    intros Ev. rewrite Br'. apply Br, Ev. }
  destruct ((y <? H) && (x <? W)) eqn:V.
  - destruct (visible_split W H x y V) as [Vx Vy].
    pose proof (u_visible_range W H faces HW HH f x y Hf ltac:(lia) ltac:(lia)) as VR.
    set (q := u_visible_no W H f x y) in *. assert (zlen dst = faces * H * W * (4 * 2)) as LD by exact (proj1 Fl).
    destruct (etc_head_ok m (znth CE (fst (colors n))) (znth CE (snd (colors n))) (e_flip W E n) (ce_good _ R1) (ce_good _ R2) RF) as [-> Lh]. cbn [bind].
    rewrite write_bytes4_ok by lia. cbn [bind]. pose proof (D3 n) as D3n. rewrite lor_double by lia. rewrite idx_ok by lia. cbn [bind].
    rewrite (put_more m dst (4 * (q * 2)) (etc_head (znth CE (fst (colors n))) (znth CE (snd (colors n))) (e_flip W E n)) _ (q * 2 + 1) (znth CS (2 * e_sel E n + e_flip W E n))) by (try reflexivity; lia). cbn [bind].
    eexists. split; [reflexivity|]. split; [do 2 f_equal; lia|]. split; [rewrite BH2; do 2 f_equal; lia|]. split; [exact Bf'|]. split; [exact F4|].
    pose proof (u_fill_visible W H faces 2 HW HH HF ltac:(lia) blk etc1_len f x y dst Hf ltac:(lia) ltac:(lia) Fl) as K.
    fold n q in K. replace (4 * (q * 2)) with (q * (4 * 2)) by ring.
    unfold e_block at 2 in K. rewrite Wa in K at 2. cbn [app] in K. unfold e_color_part in K. exact K.
  - eexists. split; [reflexivity|]. split; [do 2 f_equal; lia|]. split; [rewrite BH2; do 2 f_equal; lia|]. split; [exact Bf'|]. split; [exact F4|].
    exact (u_fill_hidden W H faces 2 HW HH HF ltac:(lia) blk f x y dst Hf Hx Hy V Fl).
Qed.

Lemma unity_etc1_ok cd dst : h_faces (u_header u) = faces -> feeds cd (e_level_symbols W H faces with_alpha E) ->
  zlen dst = faces * H * W * 8 -> unity_unpack_etc1 m u cd dst (W * 8) W H = Ok (e_level_blocks W H faces with_alpha CE CS AE AS E).
Proof.
  intros Ef F L. unfold unity_unpack_etc1. cbv zeta. rewrite Ef.
  destruct (unity_loops_ok W H faces 2 HW HH HF ltac:(lia) HS HZ ltac:(lia) m e_etc1_rel (unity_etc1_block m u) (0, 0, repeat default_elem (Z.to_nat (Z.shiftl (even_width W) 1)), cd, dst) HM)
    as ([[[[ce g] buf] cd'] dst'] & Eq & Q).
  - pose proof (u_cols_bounds W HW) as CB. unfold e_etc1_rel, e_colors. rewrite !value_neg by lia. split; [reflexivity|]. split; [reflexivity|]. split; [apply e_buffer_start|]. split; [exact F|].
    apply u_fill_start; auto; lia.
  - intros f x y st Hf Hx Hy. apply e_etc1_block_ok; auto.
  - change (W * 8) with (W * (4 * 2)). rewrite Eq. cbn [bind]. f_equal. destruct Q as (_ & _ & _ & _ & Q).
    exact (u_fill_end W H faces 2 HW HH HF ltac:(lia) blk etc1_len dst' Q).
Qed.
End Etc1.

(** ** ETC2 with alpha *)
Section Etc2a.
Hypothesis Wa : with_alpha = true.
Hypothesis HZ : (faces * H + 2) * (W + 2) * (4 * 4) <= 2 ^ 48.
Notation blk := (e_block W with_alpha CE CS AE AS E).

Lemma etc2a_len n : zlen (blk n) = 4 * 4.
Proof. unfold e_block. rewrite Wa, zlen_app, alpha_part_len, color_part_len. reflexivity. Qed.

Definition e_etc2a_rel (n : Z) (st : Z * Z * Z * Z * list elem * codec * list Z) : Prop :=
  let '(ce, ae, diagc, diaga, buf, cd, dst) := st in
  ce = snd (colors (n - 1)) /\ ae = alpha (n - 1) /\ diagc = snd (colors (n - 1 - cols)) /\ diaga = alpha (n - 1 - cols) /\ e_buffer_ok n buf /\
  feeds cd (e_from n) /\ u_filled W H faces 4 blk n dst.

Lemma e_etc2a_block_ok f x y st : 0 <= f < faces -> 0 <= x < cols -> 0 <= y < rows -> e_etc2a_rel (place f x y) st ->
  exists st', unity_etc2a_block m u y x ((y <? H) && (x <? W)) (u_visible_no W H f x y * 4) st = Ok st' /\ e_etc2a_rel (place f x y + 1) st'.
Proof.
  intros Hf Hx Hy. destruct st as [[[[[[ce ae] diagc] diaga] buf] cd] dst]. intros (E1 & E1a & E2 & E2a & Bf & F & Fl).
  pose proof (place_range W H faces HF f x y Hf Hx Hy) as Rn. destruct (place_coords W H HH f x y ltac:(lia) Hx Hy) as (_ & _ & Ex & _).
  rewrite e_from_cons in F by lia. unfold unity_etc2a_block. cbv zeta.
  rewrite shl_mul by lia. change (x * 2 ^ 1) with (x * 2). replace (x * 2) with (2 * x) by lia.
  assert (zlen buf = 2 * cols) as Lb by exact (proj1 Bf).
  rewrite (idx_ok_d default_elem buf (2 * x)) by lia. cbn [bind].
  destruct (etc_reference_ok "Failed to decode ETC2 Texture." f x y buf cd _ Hf Hx Hy Bf F) as (b & cd1 & -> & F1 & Bc & Ba & Br). cbn [bind].
  pose proof (e_buffer_here (place f x y) buf ltac:(lia) Bf) as BH. cbv zeta in BH. rewrite Ex in BH. destruct BH as (BH1 & BH2 & BH3 & _).
  destruct (BH3 Wa) as [BH4 BH5].
  set (n := place f x y) in *. rewrite BH1 in Bc. rewrite BH4 in Ba. destruct (e_code_parts n) as (-> & -> & RS & RT & _).
  destruct (e_flip_ok n) as [-> RF]. rewrite Wa in F1. cbn [app] in F1.
  pose proof (e_colors_fst n ltac:(lia)) as Fst. pose proof (e_colors_snd n ltac:(lia)) as Snd. pose proof (e_alpha_eq n ltac:(lia)) as Al.
  destruct (e_colors_range n) as [R1 R2]. pose proof ce_pos as CP. pose proof (e_alpha_range n Wa) as RA.
  destruct HD as (_ & D1 & D2 & D3 & D4 & _). destruct (D4 Wa) as [D5 D6]. destruct (HA Wa) as (A0 & A1 & A2).
  pose proof (u16_small (fst (colors n)) (zlen CE) R1 HC) as U1. pose proof (u16_small (snd (colors n)) (zlen CE) R2 HC) as U2.
  pose proof (u16_small (alpha n) (zlen AE) RA A0) as U3.
  assert (exists b' cd', (if source n =? 0
     then
      let* (ce, cd) := unity_advance m "Failed to decode ETC2 Texture." (u_endpoint_dm0 u) (zlen CE) ce cd1 in
      let* (ae, cd) := unity_advance m "Failed to decode ETC2 Texture." (u_endpoint_dm1 u) (zlen AE) ae cd in
      Ok (ce, ae, set_alpha0 (set_color b (u16 ce)) (u16 ae), cd)
     else if source n =? 1 then Ok (ce, ae, set_alpha0 (set_color b (u16 ce)) (u16 ae), cd1)
     else if source n =? 3 then Ok (diagc, diaga, set_alpha0 (set_color b (u16 diagc)) (u16 diaga), cd1)
     else Ok (b_color b, b_alpha0 b, b, cd1)) = Ok (fst (colors n), alpha n, b', cd') /\
     b_color b' = fst (colors n) /\ b_alpha0 b' = alpha n /\ b_ref b' = b_ref b /\
     feeds cd' ((ColorSel, e_sel E n) :: (AlphaSel, e_asel E n) :: (if second n =? 0 then [] else [(ColorEnd, e_end2 E n)]) ++ e_from (n + 1))) as (b' & cd2 & -> & Bn & Bna & Br' & F2).
  { destruct (Z.eqb_spec (source n) 0) as [Es|Es].
    - cbn [app] in F1. subst ce ae. destruct (e_colors_range (n - 1)) as [_ R3]. pose proof (e_alpha_range (n - 1) Wa) as R4.
      destruct (e_advance "Failed to decode ETC2 Texture." ColorEnd (zlen CE) (snd (colors (n - 1))) (e_end E n) cd1 _ ltac:(lia) R3 (D1 n) F1) as (cd2 & A & F2).
      change (dm_of u ColorEnd) with (u_endpoint_dm0 u) in A. rewrite A. cbn [bind].
      destruct (e_advance "Failed to decode ETC2 Texture." AlphaEnd (zlen AE) (alpha (n - 1)) (e_alpha E n) cd2 _ ltac:(lia) R4 (D5 n) F2) as (cd3 & A' & F3).
      change (dm_of u AlphaEnd) with (u_endpoint_dm1 u) in A'. rewrite A'. cbn [bind]. rewrite <- Fst, <- Al.
      do 2 eexists. split; [reflexivity|]. cbn [set_color set_alpha0 b_color b_alpha0 b_ref]. split; [exact U1|]. split; [exact U3|]. split; [reflexivity|exact F3].
    - cbn [app] in F1. destruct (Z.eqb_spec (source n) 1) as [Es1|Es1].
      + do 2 eexists. subst ce ae. rewrite <- Fst, <- Al. split; [reflexivity|]. cbn [set_color set_alpha0 b_color b_alpha0 b_ref]. split; [exact U1|]. split; [exact U3|]. split; [reflexivity|exact F1].
      + destruct (Z.eqb_spec (source n) 3) as [Es3|Es3].
        * do 2 eexists. subst diagc diaga. rewrite Es3 in Fst, Al. cbn [Z.eqb Pos.eqb] in Fst, Al. rewrite <- Fst, <- Al. split; [reflexivity|]. cbn [set_color set_alpha0 b_color b_alpha0 b_ref]. split; [exact U1|]. split; [exact U3|]. split; [reflexivity|exact F1].
        * assert (source n = 2) as Es2 by lia. rewrite Es2 in Fst, Al. cbn [Z.eqb Pos.eqb] in Fst, Al. rewrite Bc, Ba, <- Fst, <- Al.
          do 2 eexists. split; [reflexivity|]. split; [congruence|]. split; [congruence|]. split; [reflexivity|exact F1]. }
  cbn [bind]. rewrite upd_ok by lia. cbn [bind]. rewrite idx_ok by lia. cbn [bind].
  destruct F2 as (cd3 & Dc & F3). cbn [fst snd dm_of] in Dc. rewrite Dc. cbn [or_err bind].
  destruct F3 as (cd3' & Dc' & F3). cbn [fst snd dm_of] in Dc'. rewrite Dc'. cbn [or_err bind].
  assert (exists cd4, (if negb (second n =? 0) then unity_advance m "Failed to decode ETC2 Texture." (u_endpoint_dm0 u) (zlen CE) (fst (colors n)) cd3' else Ok (fst (colors n), cd3')) =
    Ok (snd (colors n), cd4) /\ feeds cd4 (e_from (n + 1))) as (cd4 & -> & F4).
  { destruct (second n =? 0); cbn [negb app] in *.
    - rewrite Snd. exists cd3'. split; [reflexivity|exact F3].
    - destruct (e_advance "Failed to decode ETC2 Texture." ColorEnd (zlen CE) (fst (colors n)) (e_end2 E n) cd3' _ ltac:(lia) R1 (D2 n) F3) as (cd4 & A & F4).
      exists cd4. rewrite Snd. split; [exact A|exact F4]. }
  cbn [bind]. rewrite idx_ok by lia. cbn [bind]. rewrite (lor_double' x) by lia.
  rewrite (idx_ok_d default_elem) by (rewrite zlen_replace; lia). cbn [bind].
  rewrite nth_replace by lia. destruct (Z.eqb_spec (2 * x + 1) (2 * x)); [lia|].
  rewrite upd_ok by (rewrite zlen_replace; lia). cbn [bind].
  assert (e_buffer_ok (n + 1) (replace_nth (Z.to_nat (2 * x + 1)) (set_alpha0 (set_color (nth (Z.to_nat (2 * x + 1)) buf default_elem) (u16 (snd (colors n)))) (u16 (alpha n)))
    (replace_nth (Z.to_nat (2 * x)) b' buf))) as Bf'.
  { rewrite <- Ex. apply e_buffer_next; [lia|exact Bf|exact Bn|exact U2|intros _; split; [exact Bna|exact U3]|].
    intros Ev. rewrite Br'. apply Br, Ev. }
  destruct ((y <? H) && (x <? W)) eqn:V.
  - destruct (visible_split W H x y V) as [Vx Vy].
    pose proof (u_visible_range W H faces HW HH f x y Hf ltac:(lia) ltac:(lia)) as VR.
    set (q := u_visible_no W H f x y) in *. assert (zlen dst = faces * H * W * (4 * 4)) as LD by exact (proj1 Fl).
    destruct (etc_head_ok m (znth CE (fst (colors n))) (znth CE (snd (colors n))) (e_flip W E n) (ce_good _ R1) (ce_good _ R2) RF) as [-> Lh]. cbn [bind].
    pose proof (D6 n) as D6n.
    assert ((if negb (e_flip W E n =? 0) then e_asel E n * 6 + 3 else e_asel E n * 6) = 3 * (2 * e_asel E n + e_flip W E n)) as ->.
    { destruct (Z.eqb_spec (e_flip W E n) 0); cbn [negb]; lia. }
    rewrite unity_alpha_words_ok by lia. cbn [bind]. rewrite idx_ok by lia. cbn [bind].
    rewrite write_alpha_ok by (try apply words_znth; auto; lia). cbn [bind].
    set (ab := le 2 _ ++ _). assert (zlen ab = 8) as Lab by (unfold ab; rewrite !zlen_app, !zlen_le by lia; reflexivity).
    rewrite write_bytes4_ok by (rewrite ?zlen_put; lia). cbn [bind].
    replace (4 * (q * 4 + 2)) with (4 * (q * 4) + zlen ab) by lia. rewrite put_put by lia.
    pose proof (D3 n) as D3n. rewrite lor_double by lia. rewrite idx_ok by lia. cbn [bind].
    rewrite (put_more m dst (4 * (q * 4)) (ab ++ etc_head (znth CE (fst (colors n))) (znth CE (snd (colors n))) (e_flip W E n)) _ (q * 4 + 3) (znth CS (2 * e_sel E n + e_flip W E n))) by (try reflexivity; rewrite ?zlen_app; lia). cbn [bind].
    eexists. split; [reflexivity|]. split; [do 2 f_equal; lia|]. split; [f_equal; lia|]. split; [rewrite BH2; do 2 f_equal; lia|]. split; [rewrite BH5; f_equal; lia|]. split; [exact Bf'|]. split; [exact F4|].
    pose proof (u_fill_visible W H faces 4 HW HH HF ltac:(lia) blk etc2a_len f x y dst Hf ltac:(lia) ltac:(lia) Fl) as K.
    fold n q in K. replace (4 * (q * 4)) with (q * (4 * 4)) by ring.
    unfold e_block at 2 in K. rewrite Wa in K at 2. unfold e_color_part, e_alpha_part in K. unfold ab. rewrite <- (app_assoc (le 2 _ ++ _)). exact K.
  - eexists. split; [reflexivity|]. split; [do 2 f_equal; lia|]. split; [f_equal; lia|]. split; [rewrite BH2; do 2 f_equal; lia|]. split; [rewrite BH5; f_equal; lia|]. split; [exact Bf'|]. split; [exact F4|].
    exact (u_fill_hidden W H faces 4 HW HH HF ltac:(lia) blk f x y dst Hf Hx Hy V Fl).
Qed.

Lemma unity_etc2a_ok cd dst : h_faces (u_header u) = faces -> feeds cd (e_level_symbols W H faces with_alpha E) ->
  zlen dst = faces * H * W * 16 -> unity_unpack_etc2a m u cd dst (W * 16) W H = Ok (e_level_blocks W H faces with_alpha CE CS AE AS E).
Proof.
  intros Ef F L. unfold unity_unpack_etc2a. cbv zeta. rewrite Ef.
  destruct (unity_loops_ok W H faces 4 HW HH HF ltac:(lia) HS HZ ltac:(lia) m e_etc2a_rel (unity_etc2a_block m u) (0, 0, 0, 0, repeat default_elem (Z.to_nat (Z.shiftl (even_width W) 1)), cd, dst) HM)
    as ([[[[[[ce ae] dc] da] buf] cd'] dst'] & Eq & Q).
  - pose proof (u_cols_bounds W HW) as CB. unfold e_etc2a_rel, e_colors, e_alpha_index. rewrite !value_neg by lia. split; [reflexivity|]. split; [reflexivity|]. split; [reflexivity|]. split; [reflexivity|]. split; [apply e_buffer_start|]. split; [exact F|].
    apply u_fill_start; auto; lia.
  - intros f x y st Hf Hx Hy. apply e_etc2a_block_ok; auto.
  - change (W * 16) with (W * (4 * 4)). rewrite Eq. cbn [bind]. f_equal. destruct Q as (_ & _ & _ & _ & _ & _ & Q).
    exact (u_fill_end W H faces 4 HW HH HF ltac:(lia) blk etc2a_len dst' Q).
Qed.
End Etc2a.
End Etc.
