(** * Proofs about the pictures a format can store: the blocks of BC1-BC5 and ATC. *)
From Verif Require Import Base BaseLemmas SpecImage SpecBc SpecCut SpecEncode ProofEncode.

Definition below (n : Z) (l : list Z) : Prop := forall i, 0 <= znth l i < n.

Lemma four_cases c : 0 <= c < 4 -> c = 0 \/ c = 1 \/ c = 2 \/ c = 3. Proof. lia. Qed.
Lemma split4 t : 0 <= t < 16 -> 0 <= t / 4 < 4 /\ 0 <= t mod 4 < 4 /\ t = 4 * (t / 4) + t mod 4.
Proof. intros Ht. Z.to_euclidean_division_equations; lia. Qed.
Lemma znth_pre a b i : 0 <= i -> znth (a ++ b) (zlen a + i) = znth b i.
Proof. intros Hi. rewrite znth_app2 by lia. f_equal. lia. Qed.

(** Choices of numbers. *)
Lemma numbers n (P : Z -> Z -> Prop) : 0 < n -> (forall t, 0 <= t < 16 -> exists s, 0 <= s < n /\ P t s) ->
  exists l, below n l /\ forall t, 0 <= t < 16 -> P t (znth l t).
Proof.
  intros Hn H. destruct (choices 0 (fun t s => 0 <= s < n /\ P t s) 16 ltac:(lia) H) as (l & L & Pl).
  exists l. split; [|intros t Ht; exact (proj2 (Pl t Ht))].
  intros i. destruct (Z.ltb_spec i 16) as [A|A].
  - destruct (Z.leb_spec 0 i) as [B|B]; [exact (proj1 (Pl i (conj B A)))|]. unfold znth. replace (Z.to_nat i) with (Z.to_nat 0) by lia. exact (proj1 (Pl 0 ltac:(lia))).
  - unfold znth. rewrite nth_overflow by (unfold zlen in L; lia). lia.
Qed.

(** ** Two-bit indices *)
Definition pack2 (l : list Z) : list Z := tab 4 (fun r => znth l (4 * r) + 4 * znth l (4 * r + 1) + 16 * znth l (4 * r + 2) + 64 * znth l (4 * r + 3)).
Definition colour_bytes (c : Z * Z) (l : list Z) : list Z := [fst c mod 256; fst c / 256; snd c mod 256; snd c / 256] ++ pack2 l.
Lemma tab_bytes n f : (forall i, 0 <= i < n -> is_byte (f i)) -> bytes (tab n f).
Proof. intros H. unfold tab. apply Forall_forall. intros v Hv. apply in_map_iff in Hv. destruct Hv as (i & <- & Hi). apply H. apply in_zrange in Hi. exact Hi. Qed.
Lemma colour_bytes_ok c l : u16_pair c -> below 4 l -> bytes (colour_bytes c l) /\ zlen (colour_bytes c l) = 8.
Proof.
  intros [H0 H1] Hl. unfold is_u16 in *. split; [|reflexivity].
  apply Forall_app. split.
  - repeat (apply Forall_cons; [unfold is_byte; Z.to_euclidean_division_equations; lia|]). constructor.
  - apply tab_bytes. intros i Hi. pose proof (Hl (4 * i)). pose proof (Hl (4 * i + 1)). pose proof (Hl (4 * i + 2)). pose proof (Hl (4 * i + 3)). unfold is_byte. lia.
Qed.
Lemma colour_bytes_0 c l : u16_pair c -> le16 (colour_bytes c l) 0 = fst c.
Proof. intros [H0 H1]. unfold is_u16 in *. unfold le16. change (fst c mod 256 + 256 * (fst c / 256) = fst c). Z.to_euclidean_division_equations; lia. Qed.
Lemma colour_bytes_2 c l : u16_pair c -> le16 (colour_bytes c l) 2 = snd c.
Proof. intros [H0 H1]. unfold is_u16 in *. unfold le16. change (snd c mod 256 + 256 * (snd c / 256) = snd c). Z.to_euclidean_division_equations; lia. Qed.
Lemma digits4 a b c d t : 0 <= a < 4 -> 0 <= b < 4 -> 0 <= c < 4 -> 0 <= d < 4 -> 0 <= t < 4 ->
  (a + 4 * b + 16 * c + 64 * d) / 4 ^ t mod 4 = if t =? 0 then a else if t =? 1 then b else if t =? 2 then c else d.
Proof.
  intros Ha Hb Hc Hd Ht. destruct (four_cases t Ht) as [->|[->|[->| ->]]].
  - change (4 ^ 0) with 1. change (0 =? 0) with true. cbn iota. Z.to_euclidean_division_equations; lia.
  - change (4 ^ 1) with 4. change (1 =? 0) with false. change (1 =? 1) with true. cbn iota. Z.to_euclidean_division_equations; lia.
  - change (4 ^ 2) with 16. change (2 =? 0) with false. change (2 =? 1) with false. change (2 =? 2) with true. cbn iota. Z.to_euclidean_division_equations; lia.
  - change (4 ^ 3) with 64. change (3 =? 0) with false. change (3 =? 1) with false. change (3 =? 2) with false. cbn iota. Z.to_euclidean_division_equations; lia.
Qed.
Lemma colour_bytes_index c l t : below 4 l -> 0 <= t < 16 -> index2 (colour_bytes c l) 4 t = znth l t.
Proof.
  intros Hl Ht. destruct (split4 t Ht) as (A & B & E). unfold index2, colour_bytes.
  change (znth ([fst c mod 256; fst c / 256; snd c mod 256; snd c / 256] ++ pack2 l) (4 + t / 4)) with (znth ([fst c mod 256; fst c / 256; snd c mod 256; snd c / 256] ++ pack2 l) (zlen [fst c mod 256; fst c / 256; snd c mod 256; snd c / 256] + t / 4)).
  rewrite znth_pre by lia. unfold pack2. rewrite znth_tab by lia. rewrite digits4 by (apply Hl || lia).
  destruct (four_cases (t mod 4) B) as [F|[F|[F|F]]]; rewrite F in E |- *; cbn [Z.eqb Pos.eqb]; f_equal; lia.
Qed.

(** ** Three-bit indices *)
Fixpoint number (b : Z) (l : list Z) : Z := match l with [] => 0 | d :: l => d + b * number b l end.
Lemma number_bound b l : 0 < b -> Forall (fun d => 0 <= d < b) l -> 0 <= number b l < b ^ zlen l.
Proof.
  intros Hb. induction l as [|d l IH]; intros H.
  - cbn. lia.
  - inversion H as [|? ? H1 H2]; subst. specialize (IH H2). cbn [number].
    replace (zlen (d :: l)) with (Z.succ (zlen l)) by (unfold zlen; cbn [length]; lia). rewrite Z.pow_succ_r by (unfold zlen; lia).
    pose proof (Z.mul_le_mono_nonneg_l (number b l + 1) (b ^ zlen l) b ltac:(lia) ltac:(lia)). pose proof (Z.mul_nonneg_nonneg b (number b l) ltac:(lia) ltac:(lia)). lia.
Qed.
Lemma number_digit b l : 0 < b -> Forall (fun d => 0 <= d < b) l -> forall t, 0 <= t < zlen l -> number b l / b ^ t mod b = znth l t.
Proof.
  intros Hb. induction l as [|d l IH]; intros H t Ht.
  - unfold zlen in Ht. cbn in Ht. lia.
  - inversion H as [|? ? H1 H2]; subst. cbn [number]. destruct (Z.eq_dec t 0) as [->|E].
    + rewrite Z.pow_0_r, Z.div_1_r, Z.mul_comm, Z.mod_add, Z.mod_small by lia. reflexivity.
    + replace t with (Z.succ (t - 1)) at 1 by lia. rewrite Z.pow_succ_r by lia. rewrite <- Z.div_div by (try lia; apply Z.pow_pos_nonneg; lia).
      rewrite (Z.mul_comm b (number b l)), Z.div_add by lia. rewrite (Z.div_small d) by lia. rewrite Z.add_0_l.
      rewrite IH; [|exact H2|unfold zlen in *; cbn [length] in Ht; lia]. unfold znth. replace (Z.to_nat t) with (S (Z.to_nat (t - 1))) by lia. reflexivity.
Qed.

Definition digits (l : list Z) : list Z := tab 16 (znth l).
Lemma digits_ok n l : below n l -> Forall (fun d => 0 <= d < n) (digits l).
Proof. intros H. unfold digits, tab. apply Forall_forall. intros v Hv. apply in_map_iff in Hv. destruct Hv as (i & <- & _). apply H. Qed.
Definition ramp_bytes (a : Z * Z) (l : list Z) : list Z := [fst a; snd a] ++ tab 6 (fun k => number 8 (digits l) / 256 ^ k mod 256).
Lemma ramp_bytes_ok a l : byte_pair a -> bytes (ramp_bytes a l) /\ zlen (ramp_bytes a l) = 8.
Proof.
  intros [H0 H1]. split; [|reflexivity]. unfold ramp_bytes. apply Forall_app. split; [apply Forall_cons; [exact H0|apply Forall_cons; [exact H1|constructor]]|].
  apply tab_bytes. intros i Hi. apply Z.mod_pos_bound. lia.
Qed.
Lemma six_bytes N : 0 <= N < 2 ^ 48 ->
  N / 256 ^ 0 mod 256 + 256 * (N / 256 ^ 1 mod 256 + 256 * (N / 256 ^ 2 mod 256 + 256 * (N / 256 ^ 3 mod 256 + 256 * (N / 256 ^ 4 mod 256 + 256 * (N / 256 ^ 5 mod 256))))) = N.
Proof.
  intros HN. change (256 ^ 0) with 1. change (256 ^ 1) with 256. change (256 ^ 2) with (256 * 256). change (256 ^ 3) with (256 * 256 * 256).
  change (256 ^ 4) with (256 * 256 * 256 * 256). change (256 ^ 5) with (256 * 256 * 256 * 256 * 256). rewrite <- !Z.div_div by lia. rewrite Z.div_1_r.
  set (n1 := N / 256). set (n2 := n1 / 256). set (n3 := n2 / 256). set (n4 := n3 / 256). set (n5 := n4 / 256).
  assert (n5 < 256) as A.
  { subst n1 n2 n3 n4 n5. rewrite !Z.div_div by lia. apply Z.div_lt_upper_bound; [lia|]. change (2 ^ 48) with (256 * 256 * 256 * 256 * 256 * 256) in HN. lia. }
  assert (0 <= n5) as B by (subst n1 n2 n3 n4 n5; rewrite !Z.div_div by lia; apply Z.div_pos; lia).
  rewrite (Z.mod_small n5) by lia.
  pose proof (Z.div_mod N 256 ltac:(lia)). pose proof (Z.div_mod n1 256 ltac:(lia)). pose proof (Z.div_mod n2 256 ltac:(lia)). pose proof (Z.div_mod n3 256 ltac:(lia)). pose proof (Z.div_mod n4 256 ltac:(lia)).
  fold n1 in H. fold n2 in H0. fold n3 in H1. fold n4 in H2. fold n5 in H3. lia.
Qed.
Lemma ramp_bytes_index a l t : below 8 l -> 0 <= t < 16 -> index3 (ramp_bytes a l) 0 t = znth l t.
Proof.
  intros Hl Ht. unfold index3, ramp_bytes. set (N := number 8 (digits l)).
  pose proof (digits_ok 8 l Hl) as D.
  assert (0 <= N < 2 ^ 48) as B. { pose proof (number_bound 8 (digits l) ltac:(lia) D) as H. change (8 ^ zlen (digits l)) with (2 ^ 48) in H. exact H. }
  change (znth ([fst a; snd a] ++ tab 6 (fun k => N / 256 ^ k mod 256)) (0 + 2)) with (N / 256 ^ 0 mod 256).
  change (znth ([fst a; snd a] ++ tab 6 (fun k => N / 256 ^ k mod 256)) (0 + 3)) with (N / 256 ^ 1 mod 256).
  change (znth ([fst a; snd a] ++ tab 6 (fun k => N / 256 ^ k mod 256)) (0 + 4)) with (N / 256 ^ 2 mod 256).
  change (znth ([fst a; snd a] ++ tab 6 (fun k => N / 256 ^ k mod 256)) (0 + 5)) with (N / 256 ^ 3 mod 256).
  change (znth ([fst a; snd a] ++ tab 6 (fun k => N / 256 ^ k mod 256)) (0 + 6)) with (N / 256 ^ 4 mod 256).
  change (znth ([fst a; snd a] ++ tab 6 (fun k => N / 256 ^ k mod 256)) (0 + 7)) with (N / 256 ^ 5 mod 256).
  rewrite six_bytes by exact B. unfold N. rewrite number_digit; [|lia|exact D|exact Ht]. unfold digits. apply znth_tab. lia.
Qed.
Lemma ramp_bytes_interp a l t : below 8 l -> 0 <= t < 16 -> interp8 (ramp_bytes a l) 0 t = ramp (fst a) (snd a) (znth l t).
Proof. intros Hl Ht. unfold interp8. rewrite ramp_bytes_index by assumption. reflexivity. Qed.

(** ** Four-bit alpha *)
Definition nibble_bytes (l : list Z) : list Z := tab 8 (fun k => znth l (2 * k) + 16 * znth l (2 * k + 1)).
Lemma nibble_bytes_ok l : below 16 l -> bytes (nibble_bytes l) /\ zlen (nibble_bytes l) = 8.
Proof. intros H. split; [|reflexivity]. apply tab_bytes. intros i Hi. pose proof (H (2 * i)). pose proof (H (2 * i + 1)). unfold is_byte. lia. Qed.
Lemma nibble_bytes_alpha l t : below 16 l -> 0 <= t < 16 -> bc2_alpha (nibble_bytes l) t = 17 * znth l t.
Proof.
  intros H Ht. unfold bc2_alpha, nibble_bytes. assert (0 <= t / 2 < 8 /\ (t mod 2 = 0 /\ t = 2 * (t / 2) \/ t mod 2 = 1 /\ t = 2 * (t / 2) + 1)) as [A B] by (Z.to_euclidean_division_equations; lia).
  rewrite znth_tab by exact A. pose proof (H (2 * (t / 2))) as H1. pose proof (H (2 * (t / 2) + 1)) as H2. f_equal.
  destruct B as [[B E]|[B E]]; rewrite B.
  - change (16 ^ 0) with 1. rewrite <- E in H1 |- *. Z.to_euclidean_division_equations; lia.
  - change (16 ^ 1) with 16. rewrite <- E in H2 |- *. Z.to_euclidean_division_equations; lia.
Qed.

(** ** Blocks of two halves *)
Section Halves.
Context (a b : list Z) (La : zlen a = 8) (Lb : zlen b = 8).
Lemma halves_len : zlen (a ++ b) = 16. Proof. rewrite zlen_app. lia. Qed.
Lemma first_half i : 0 <= i < 8 -> znth (a ++ b) i = znth a i. Proof. intros H. apply znth_app1. lia. Qed.
Lemma second_half i : 0 <= i -> znth (a ++ b) (8 + i) = znth b i. Proof. intros H. rewrite <- La. apply znth_pre. exact H. Qed.
Lemma le16_second o : 0 <= o -> le16 (a ++ b) (8 + o) = le16 b o.
Proof. intros H. unfold le16. rewrite <- Z.add_assoc, !second_half by lia. reflexivity. Qed.
Lemma index2_second t : 0 <= t < 16 -> index2 (a ++ b) 12 t = index2 b 4 t.
Proof. intros H. destruct (split4 t H) as (A & _ & _). unfold index2. replace (12 + t / 4) with (8 + (4 + t / 4)) by lia. rewrite second_half by lia. reflexivity. Qed.
Lemma interp8_first t : interp8 (a ++ b) 0 t = interp8 a 0 t.
Proof. unfold interp8, index3. rewrite !first_half by lia. reflexivity. Qed.
Lemma interp8_second t : interp8 (a ++ b) 8 t = interp8 b 0 t.
Proof. unfold interp8, index3. pose proof (second_half 0 ltac:(lia)) as Z0. change (8 + 0) with 8 in Z0. rewrite Z0, !second_half by lia. reflexivity. Qed.
Lemma bc2_alpha_first t : 0 <= t < 16 -> bc2_alpha (a ++ b) t = bc2_alpha a t.
Proof. intros H. unfold bc2_alpha. rewrite first_half by (Z.to_euclidean_division_equations; lia). reflexivity. Qed.
Lemma halves_bytes : bytes a -> bytes b -> bytes (a ++ b). Proof. intros. apply Forall_app. split; assumption. Qed.
End Halves.

(** ** The colours of a block *)
Lemma index2_range b o t : 0 <= index2 b o t < 4. Proof. apply Z.mod_pos_bound. lia. Qed.
Lemma index3_range b o t : 0 <= index3 b o t < 8. Proof. apply Z.mod_pos_bound. lia. Qed.
Lemma le16_range b o : bytes b -> is_u16 (le16 b o).
Proof. intros H. unfold le16, is_u16. pose proof (bytes_znth b o H). pose proof (bytes_znth b (o + 1) H). lia. Qed.
Lemma block_rgb b o t a : rgba (bc1_r b o t) (bc1_g b o t) (bc1_b b o t) a = bc1_rgb (le16 b o, le16 b (o + 2)) (index2 b (o + 4) t) a.
Proof. reflexivity. Qed.
Lemma block_atc dark b o t a : atc_rgb dark b o t a = atc_colour_at dark (le16 b o, le16 b (o + 2)) (index2 b (o + 4) t) a.
Proof. reflexivity. Qed.
Lemma block_ramp b o t : ramp_value (znth b o, znth b (o + 1)) (interp8 b o t).
Proof. exists (index3 b o t). split; [apply index3_range|reflexivity]. Qed.
Lemma ends_at b o : bytes b -> u16_pair (le16 b o, le16 b (o + 2)).
Proof. intros H. split; apply le16_range, H. Qed.
Lemma bytes_at_pair b o : bytes b -> byte_pair (znth b o, znth b (o + 1)).
Proof. intros H. split; apply (bytes_znth b _ H). Qed.
Lemma pair_eta (c : Z * Z) : (fst c, snd c) = c. Proof. destruct c; reflexivity. Qed.
Lemma colour_block c l t a : u16_pair c -> below 4 l -> 0 <= t < 16 -> rgba (bc1_r (colour_bytes c l) 0 t) (bc1_g (colour_bytes c l) 0 t) (bc1_b (colour_bytes c l) 0 t) a = bc1_rgb c (znth l t) a.
Proof. intros Hc Hl Ht. rewrite block_rgb. rewrite (colour_bytes_0 c l Hc). change (0 + 2) with 2. change (0 + 4) with 4. rewrite (colour_bytes_2 c l Hc), colour_bytes_index by assumption. rewrite pair_eta. reflexivity. Qed.
Lemma colour_block_second p c l t a : zlen p = 8 -> u16_pair c -> below 4 l -> 0 <= t < 16 ->
  rgba (bc1_r (p ++ colour_bytes c l) 8 t) (bc1_g (p ++ colour_bytes c l) 8 t) (bc1_b (p ++ colour_bytes c l) 8 t) a = bc1_rgb c (znth l t) a.
Proof.
  intros Hp Hc Hl Ht. rewrite block_rgb. pose proof (le16_second p (colour_bytes c l) Hp 0 ltac:(lia)) as E. change (8 + 0) with 8 in E. rewrite E, (le16_second p _ Hp 2) by lia.
  change (8 + 4) with 12. rewrite index2_second by assumption. rewrite colour_bytes_0, colour_bytes_2, colour_bytes_index by assumption. rewrite pair_eta. reflexivity.
Qed.
Lemma atc_block dark c l t a : u16_pair c -> below 4 l -> 0 <= t < 16 -> atc_rgb dark (colour_bytes c l) 0 t a = atc_colour_at dark c (znth l t) a.
Proof. intros Hc Hl Ht. rewrite block_atc. rewrite (colour_bytes_0 c l Hc). change (0 + 2) with 2. change (0 + 4) with 4. rewrite (colour_bytes_2 c l Hc), colour_bytes_index by assumption. rewrite pair_eta. reflexivity. Qed.
Lemma atc_block_second dark p c l t a : zlen p = 8 -> u16_pair c -> below 4 l -> 0 <= t < 16 -> atc_rgb dark (p ++ colour_bytes c l) 8 t a = atc_colour_at dark c (znth l t) a.
Proof.
  intros Hp Hc Hl Ht. rewrite block_atc. pose proof (le16_second p (colour_bytes c l) Hp 0 ltac:(lia)) as E. change (8 + 0) with 8 in E. rewrite E, (le16_second p _ Hp 2) by lia.
  change (8 + 4) with 12. rewrite index2_second by assumption. rewrite colour_bytes_0, colour_bytes_2, colour_bytes_index by assumption. rewrite pair_eta. reflexivity.
Qed.

(** ** Each format stores exactly the pictures of its colours *)
Section Formats.
Variable (dec : list Z -> Z -> Z -> list Z -> res (ModelColor.status * list Z)).
Lemma bc1_stores : image_decoder 4 4 8 bc1_texel dec -> stores_exactly 8 u16_pair bc1_colour dec.
Proof.
  intros HD. apply (exactly _ _ _ _ _ HD); [lia| | |].
  - intros b B _. exists (le16 b 0, le16 b (0 + 2)). split; [apply ends_at, B|]. intros t Ht. exists (index2 b (0 + 4) t). split; [apply index2_range|]. apply block_rgb.
  - intros a _. eexists. exists 0. split; [lia|reflexivity].
  - intros a c Ha H. destruct (numbers 4 _ ltac:(lia) H) as (l & Hl & Hc). exists (colour_bytes a l). destruct (colour_bytes_ok a l Ha Hl) as [B L].
    split; [exact B|]. split; [exact L|]. intros t Ht. rewrite Hc by exact Ht. apply colour_block; assumption.
Qed.
Lemma bc1a_alpha b t : (if negb (bc1_four b 0) && (index2 b 4 t =? 3) then 0 else 255) = (if le16 b 0 <=? le16 b (0 + 2) then if index2 b (0 + 4) t =? 3 then 0 else 255 else 255).
Proof. unfold bc1_four. change (0 + 2) with 2. change (0 + 4) with 4. destruct (Z.ltb_spec (le16 b 2) (le16 b 0)), (Z.leb_spec (le16 b 0) (le16 b 2)); try lia; reflexivity. Qed.
Lemma bc1a_stores : image_decoder 4 4 8 bc1a_texel dec -> stores_exactly 8 u16_pair bc1a_colour dec.
Proof.
  intros HD. apply (exactly _ _ _ _ _ HD); [lia| | |].
  - intros b B _. exists (le16 b 0, le16 b (0 + 2)). split; [apply ends_at, B|]. intros t Ht. exists (index2 b (0 + 4) t). split; [apply index2_range|]. unfold bc1a_texel. rewrite bc1a_alpha. apply block_rgb.
  - intros a _. eexists. exists 0. split; [lia|reflexivity].
  - intros a c Ha H. destruct (numbers 4 _ ltac:(lia) H) as (l & Hl & Hc). exists (colour_bytes a l). destruct (colour_bytes_ok a l Ha Hl) as [B L].
    split; [exact B|]. split; [exact L|]. intros t Ht. rewrite Hc by exact Ht. unfold bc1a_texel. rewrite bc1a_alpha. rewrite colour_block by assumption.
    change (0 + 2) with 2. change (0 + 4) with 4. rewrite colour_bytes_0, colour_bytes_2, colour_bytes_index by assumption. reflexivity.
Qed.
Lemma bc2_stores : image_decoder 4 4 16 bc2_texel dec -> stores_exactly 16 u16_pair bc2_colour dec.
Proof.
  intros HD. apply (exactly _ _ _ _ _ HD); [lia| | |].
  - intros b B _. exists (le16 b 8, le16 b (8 + 2)). split; [apply ends_at, B|]. intros t Ht. exists (index2 b (8 + 4) t), (znth b (t / 2) / 16 ^ (t mod 2) mod 16).
    split; [apply index2_range|]. split; [apply Z.mod_pos_bound; lia|]. apply block_rgb.
  - intros a _. eexists. exists 0, 0. split; [lia|]. split; [lia|reflexivity].
  - intros e c He H.
    destruct (numbers 4 (fun t s => exists a, 0 <= a < 16 /\ c t = bc1_rgb e s (17 * a)) ltac:(lia)) as (l & Hl & Hc); [intros t Ht; destruct (H t Ht) as (s & a & A & B & C); exists s; split; [exact A|exists a; split; assumption]|].
    destruct (numbers 16 (fun t a => c t = bc1_rgb e (znth l t) (17 * a)) ltac:(lia) Hc) as (k & Hk & Hc').
    destruct (colour_bytes_ok e l He Hl) as [B L]. destruct (nibble_bytes_ok k Hk) as [B' L'].
    exists (nibble_bytes k ++ colour_bytes e l). split; [apply halves_bytes; assumption|]. split; [apply halves_len; assumption|].
    intros t Ht. rewrite Hc' by exact Ht. unfold bc2_texel. rewrite bc2_alpha_first, nibble_bytes_alpha by assumption. apply colour_block_second; assumption.
Qed.
Lemma bc3_stores : image_decoder 4 4 16 bc3_texel dec -> stores_exactly 16 bc3_ends bc3_colour dec.
Proof.
  intros HD. apply (exactly _ _ _ _ _ HD); [lia| | |].
  - intros b B _. exists ((le16 b 8, le16 b (8 + 2)), (znth b 0, znth b (0 + 1))). split; [split; [apply ends_at, B|apply bytes_at_pair, B]|].
    intros t Ht. exists (index2 b (8 + 4) t), (interp8 b 0 t). split; [apply index2_range|]. split; [apply block_ramp|]. apply block_rgb.
  - intros a _. eexists. exists 0. eexists. split; [lia|]. split; [exists 0; split; [lia|reflexivity]|reflexivity].
  - intros [e r] c [He Hr] H. cbn [fst snd] in He, Hr.
    destruct (numbers 4 (fun t s => exists a, 0 <= a < 8 /\ c t = bc1_rgb e s (ramp (fst r) (snd r) a)) ltac:(lia)) as (l & Hl & Hc); [intros t Ht; destruct (H t Ht) as (s & a & A & (i & Bi & ->) & C); exists s; split; [exact A|exists i; split; assumption]|].
    destruct (numbers 8 (fun t a => c t = bc1_rgb e (znth l t) (ramp (fst r) (snd r) a)) ltac:(lia) Hc) as (k & Hk & Hc').
    destruct (colour_bytes_ok e l He Hl) as [B L]. destruct (ramp_bytes_ok r k Hr) as [B' L'].
    exists (ramp_bytes r k ++ colour_bytes e l). split; [apply halves_bytes; assumption|]. split; [apply halves_len; assumption|].
    intros t Ht. rewrite Hc' by exact Ht. unfold bc3_texel. rewrite interp8_first, ramp_bytes_interp by assumption. apply colour_block_second; assumption.
Qed.
Lemma bc4_stores : image_decoder 4 4 8 bc4_texel dec -> stores_exactly 8 byte_pair bc4_colour dec.
Proof.
  intros HD. apply (exactly _ _ _ _ _ HD); [lia| | |].
  - intros b B _. exists (znth b 0, znth b (0 + 1)). split; [apply bytes_at_pair, B|]. intros t Ht. exists (interp8 b 0 t). split; [apply block_ramp|reflexivity].
  - intros a _. eexists. eexists. split; [exists 0; split; [lia|reflexivity]|reflexivity].
  - intros r c Hr H.
    destruct (numbers 8 (fun t a => c t = rgba (ramp (fst r) (snd r) a) 0 0 255) ltac:(lia)) as (k & Hk & Hc); [intros t Ht; destruct (H t Ht) as (a & (i & Bi & ->) & C); exists i; split; assumption|].
    destruct (ramp_bytes_ok r k Hr) as [B L]. exists (ramp_bytes r k). split; [exact B|]. split; [exact L|].
    intros t Ht. rewrite Hc by exact Ht. unfold bc4_texel. rewrite ramp_bytes_interp by assumption. reflexivity.
Qed.
Lemma bc5_stores : image_decoder 4 4 16 bc5_texel dec -> stores_exactly 16 bc5_ends bc5_colour dec.
Proof.
  intros HD. apply (exactly _ _ _ _ _ HD); [lia| | |].
  - intros b B _. exists ((znth b 0, znth b (0 + 1)), (znth b 8, znth b (8 + 1))). split; [split; apply bytes_at_pair, B|]. intros t Ht. exists (interp8 b 0 t), (interp8 b 8 t). split; [apply block_ramp|]. split; [apply block_ramp|reflexivity].
  - intros a _. eexists. eexists. eexists. split; [exists 0; split; [lia|reflexivity]|]. split; [exists 0; split; [lia|reflexivity]|reflexivity].
  - intros [p q] c [Hp Hq] H. cbn [fst snd] in Hp, Hq.
    destruct (numbers 8 (fun t a => exists b, 0 <= b < 8 /\ c t = rgba (ramp (fst p) (snd p) a) (ramp (fst q) (snd q) b) 0 255) ltac:(lia)) as (l & Hl & Hc);
      [intros t Ht; destruct (H t Ht) as (a & b & (i & Bi & ->) & (j & Bj & ->) & C); exists i; split; [exact Bi|exists j; split; assumption]|].
    destruct (numbers 8 (fun t b => c t = rgba (ramp (fst p) (snd p) (znth l t)) (ramp (fst q) (snd q) b) 0 255) ltac:(lia) Hc) as (k & Hk & Hc').
    destruct (ramp_bytes_ok p l Hp) as [B L]. destruct (ramp_bytes_ok q k Hq) as [B' L'].
    exists (ramp_bytes p l ++ ramp_bytes q k). split; [apply halves_bytes; assumption|]. split; [apply halves_len; assumption|].
    intros t Ht. rewrite Hc' by exact Ht. unfold bc5_texel. rewrite interp8_first, interp8_second, !ramp_bytes_interp by assumption. reflexivity.
Qed.
Lemma atc_rgb_stores dark : image_decoder 4 4 8 (atc_rgb4_texel dark) dec -> stores_exactly 8 u16_pair (atc_rgb_colour dark) dec.
Proof.
  intros HD. apply (exactly _ _ _ _ _ HD); [lia| | |].
  - intros b B _. exists (le16 b 0, le16 b (0 + 2)). split; [apply ends_at, B|]. intros t Ht. exists (index2 b (0 + 4) t). split; [apply index2_range|]. apply block_atc.
  - intros a _. eexists. exists 0. split; [lia|reflexivity].
  - intros a c Ha H. destruct (numbers 4 _ ltac:(lia) H) as (l & Hl & Hc). exists (colour_bytes a l). destruct (colour_bytes_ok a l Ha Hl) as [B L].
    split; [exact B|]. split; [exact L|]. intros t Ht. rewrite Hc by exact Ht. apply atc_block; assumption.
Qed.
Lemma atc_rgba_stores dark : image_decoder 4 4 16 (atc_rgba8_texel dark) dec -> stores_exactly 16 bc3_ends (atc_rgba_colour dark) dec.
Proof.
  intros HD. apply (exactly _ _ _ _ _ HD); [lia| | |].
  - intros b B _. exists ((le16 b 8, le16 b (8 + 2)), (znth b 0, znth b (0 + 1))). split; [split; [apply ends_at, B|apply bytes_at_pair, B]|].
    intros t Ht. exists (index2 b (8 + 4) t), (interp8 b 0 t). split; [apply index2_range|]. split; [apply block_ramp|]. apply block_atc.
  - intros a _. eexists. exists 0. eexists. split; [lia|]. split; [exists 0; split; [lia|reflexivity]|reflexivity].
  - intros [e r] c [He Hr] H. cbn [fst snd] in He, Hr.
    destruct (numbers 4 (fun t s => exists a, 0 <= a < 8 /\ c t = atc_colour_at dark e s (ramp (fst r) (snd r) a)) ltac:(lia)) as (l & Hl & Hc); [intros t Ht; destruct (H t Ht) as (s & a & A & (i & Bi & ->) & C); exists s; split; [exact A|exists i; split; assumption]|].
    destruct (numbers 8 (fun t a => c t = atc_colour_at dark e (znth l t) (ramp (fst r) (snd r) a)) ltac:(lia) Hc) as (k & Hk & Hc').
    destruct (colour_bytes_ok e l He Hl) as [B L]. destruct (ramp_bytes_ok r k Hr) as [B' L'].
    exists (ramp_bytes r k ++ colour_bytes e l). split; [apply halves_bytes; assumption|]. split; [apply halves_len; assumption|].
    intros t Ht. rewrite Hc' by exact Ht. unfold atc_rgba8_texel. rewrite interp8_first, ramp_bytes_interp by assumption. apply atc_block_second; assumption.
Qed.
End Formats.
