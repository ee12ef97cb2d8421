(** * Proofs about Unity crunch files of which only the codes are as they should be. *)
From Verif Require Import Base BaseLemmas ModelCrn ModelCrunch ModelUnity SpecCrn SpecCrnHeader SpecCrnFile SpecCrnTexel SpecCrnLevel SpecCrnSound SpecHuff SpecCrnErr SpecCrnSafe SpecCrnCodes SpecLoops
  SpecUnity SpecUnityFile SpecUnitySound SpecUnitySafe SpecUnityCodes
  ProofCrnBits ProofCrnRead ProofCrnModel ProofCrnPalette ProofAstcRange ProofLoops
  ProofCrnHeader ProofHuff ProofCrnIndex ProofCrnGrid ProofCrnLevel ProofCrnFile ProofCrnDecode ProofCrnWhole
  ProofUnityFile ProofUnityLevel ProofUnitySound ProofUnitySoundFile ProofUnityPalette
  ProofHuffAll ProofCrnErr ProofCrnSafe ProofCrnSafeFile ProofUnitySafe ProofUnitySafeFile ProofCrnCodes.

Lemma land_below a b : 0 <= b -> 0 <= Z.land a b <= b.
Proof.
  intros Hb. assert (0 <= Z.land a b) as P by (apply Z.land_nonneg; auto). split; [exact P|].
  apply Z.ldiff_le; [exact Hb|]. apply Z.bits_inj'. intros n Hn. rewrite Z.ldiff_spec, Z.land_spec, Z.bits_0. destruct (Z.testbit a n), (Z.testbit b n); reflexivity.
Qed.

Lemma calm_for_list {A S} inc (P : S -> Prop) (f : A -> S -> res S) : forall l s, P s -> (forall x s, In x l -> P s -> calm inc P (f x s)) -> calm inc P (for_list l f s).
Proof.
  induction l as [|x l IH]; intros s H0 H; cbn [for_list]; [exact H0|].
  apply calm_bind with (P := P); [apply H; [left; reflexivity|exact H0]|]. intros s' H'. apply IH; [exact H'|]. intros y s'' Hy. apply H. right. exact Hy.
Qed.
Lemma bind_bind {A B C} (x : res A) (f : A -> res B) (g : B -> res C) : bind (bind x f) g = bind x (fun a => bind (f a) g).
Proof. destruct x; reflexivity. Qed.

Section Palettes.
Context (m : build) (inc : Prop) (data : list Z).
Hypothesis Hb : bytes data.
Let h := header_at data.

Lemma etc_end_calm halves md a pal cd : m = Wrapping /\ serves m inc md 8191 \/ serves m inc md 224 -> 0 <= a <= 0x1F1F1F1F -> steady cd ->
  calm inc (fun st => 0 <= fst (fst st) <= 0x1F1F1F1F /\ steady (snd st)) (unity_etc_endpoint_step m halves md (a, pal, cd)).
Proof.
  intros Hs Ha Sc. unfold unity_etc_endpoint_step. apply calm_bind with (P := fun st => steady (snd st)).
  - destruct Hs as [[Em Hs]|Hs].
    + apply calm_for_list; [exact Sc|]. intros j [a0 c0] Hj S. cbn [snd] in S. assert (0 <= j < 32) as Hj2 by (cbn in Hj; lia).
      eapply decode_calm2; [exact Hs|exact S|]. intros x c' Hx S'. rewrite ushl_ok by lia. cbn [bind].
      assert (forall x, exists y, ua m 32 x = Ok y) as U by (intros z; unfold ua; rewrite Em; destruct (_ && _)%bool; eauto).
      match goal with |- context [ua m 32 ?z] => destruct (U z) as (? & ->) end. cbn [bind calm snd]. exact S'.
    + cbn [for_list]. rewrite bind_bind. eapply decode_calm2; [exact Hs|exact Sc|]; intros s0 c0 ? ?. rewrite ushl_ok by lia. cbn [bind]. change (2 ^ 0) with 1. rewrite ua_ok by (rewrite Z.mod_small; lia). cbn [bind].
      rewrite bind_bind. eapply decode_calm2; [exact Hs|eassumption|]; intros s1 c1 ? ?. rewrite ushl_ok by lia. cbn [bind]. change (2 ^ 8) with 256. rewrite ua_ok by (rewrite !Z.mod_small by lia; lia). cbn [bind].
      rewrite bind_bind. eapply decode_calm2; [exact Hs|eassumption|]; intros s2 c2 ? ?. rewrite ushl_ok by lia. cbn [bind]. change (2 ^ 16) with 65536. rewrite ua_ok by (rewrite !Z.mod_small by lia; lia). cbn [bind].
      rewrite bind_bind. eapply decode_calm2; [exact Hs|eassumption|]; intros s3 c3 ? ?. rewrite ushl_ok by lia. cbn [bind]. change (2 ^ 24) with 16777216. rewrite ua_ok by (rewrite !Z.mod_small by lia; lia). cbn [bind calm snd].
      assumption.
  - intros [a' cd'] S. cbn [calm fst snd] in *. split; [apply land_below; lia|exact S].
Qed.

Lemma u_etc_ends_calm s i : is_etc (h_format h) = true -> coding s i -> has_word s -> m = Wrapping \/ symbols_below 225 s -> (incomplete s -> inc) ->
  palette_starts data (h_color_endpoints h) i -> calm inc (fun _ => True) (unity_color_endpoints m data h).
Proof.
  intros He C W B I Hs. destruct (open_start _ _ _ _ Hb Hs) as (src & c & rest & E1 & E2 & Bf & R & F).
  unfold unity_color_endpoints. rewrite E1. cbn [bind]. rewrite E2. cbn [bind]. rewrite <- (app_nil_r i) in Bf, F. rewrite etc_blocks_etc, He.
  assert (exists md c1, receive_model m c = Ok (md, c1) /\ (m = Wrapping /\ serves m inc md 8191 \/ serves m inc md 224) /\ steady c1) as (md & c1 & -> & P & S1).
  { destruct B as [B|B].
    - destruct (take_code m inc c rest s i [] c 8191 R C F Bf W (below_all _ _ C) I) as (md & c1 & E & P & B1 & _). exists md, c1. split; [exact E|]. split; [left; auto|exact (before_steady _ _ _ R B1)].
    - destruct (take_code m inc c rest s i [] c 224 R C F Bf W B I) as (md & c1 & E & P & B1 & _). exists md, c1. split; [exact E|]. split; [right; auto|exact (before_steady _ _ _ R B1)]. }
  cbn [bind].
  eapply calm_bind; [apply (calm_for_range inc (fun _ (st : Z * list Z * codec) => 0 <= fst (fst st) <= 0x1F1F1F1F /\ steady (snd st)) _ (p_num (h_color_endpoints h)) 0)|].
  - cbn [fst snd]. split; [lia|exact S1].
  - exact (proj1 (number_num data 33 Hb)).
  - intros j [[a pal] cd] Hj [A S]. apply etc_end_calm; assumption.
  - intros [[a pal] cd] _. exact Logic.I.
Qed.
Lemma u_color_ends_calm s5 s6 i5 i6 : is_etc (h_format h) = false -> coding s5 i5 -> coding s6 i6 -> has_word s5 -> has_word s6 -> (incomplete s5 -> inc) -> (incomplete s6 -> inc) ->
  palette_starts data (h_color_endpoints h) (i5 ++ i6) -> calm inc (fun _ => True) (unity_color_endpoints m data h).
Proof.
  intros He C5 C6 W5 W6 I5 I6 Hs. unfold unity_color_endpoints. rewrite etc_blocks_etc, He.
  exact (color_ends_calm m inc data Hb s5 s6 i5 i6 C5 C6 W5 W6 I5 I6 Hs).
Qed.

Lemma etc_selectors_any (sub : bool) i s pal : 0 <= i -> (if sub then 2 * i + 1 else i) < zlen pal -> exists pal', etc_selectors m sub i s pal = Ok pal' /\ zlen pal' = zlen pal.
Proof.
  intros Hi Hk. unfold etc_selectors.
  assert (forall sel t, exists b, etc_selector_bits m sel t = Ok b) as SB.
  { intros sel t. unfold etc_selector_bits. rewrite ushl_ok by (pose proof (land_below t 15); lia). eauto. }
  assert (Z.shiftl i 1 = 2 * i) as E1 by (rewrite Z.shiftl_mul_pow2 by lia; change (2 ^ 1) with 2; lia).
  assert (Z.lor (2 * i) 1 = 2 * i + 1) as E2 by (rewrite Z.lor_comm; destruct i; try reflexivity; lia).
  set (selector := Z.lor _ _). clearbody selector. rewrite E1, E2.
  match goal with |- exists pal', bind (for_range 0 4 ?g ?s0) _ = _ /\ _ => destruct (for_range_inv (fun _ (st : Z * list Z) => zlen (snd st) = zlen pal) 0 4 g s0) as ([t pal'] & -> & Q) end.
  - lia.
  - reflexivity.
  - intros hh [t p] Hh Lp. cbn [snd] in Lp.
    match goal with |- exists s', bind (for_range 0 4 ?g ?s0) _ = _ /\ _ => destruct (for_range_inv (fun _ (st : Z * list Z) => zlen (snd st) = zlen pal) 0 4 g s0) as ([t' p'] & -> & Q') end.
    + lia.
    + exact Lp.
    + intros w [t2 p2] Hw Lp2. cbn [snd] in Lp2.
      assert (exists p3, (if sub then let* b := etc_selector_bits m (Z.shiftr selector (Z.lor (Z.shiftl w 3) (Z.shiftl hh 1))) t2 in let* old := idx p2 (2 * i) in upd p2 (2 * i) (Z.lor old b) else Ok p2) = Ok p3 /\ zlen p3 = zlen pal) as (p3 & -> & Lp3).
      { destruct sub; [|eauto]. destruct (SB (Z.shiftr selector (Z.lor (Z.shiftl w 3) (Z.shiftl hh 1))) t2) as (b & ->). cbn [bind]. rewrite idx_ok by lia. cbn [bind].
        rewrite upd_ok by lia. eexists. split; [reflexivity|]. rewrite <- Lp2. apply (upd_len p2 _ (2 * i) (Z.lor (znth p2 (2 * i)) b)). apply upd_ok. lia. }
      cbn [bind]. destruct (SB (Z.shiftr selector (Z.lor (Z.shiftl hh 3) (Z.shiftl w 1))) t2) as (b & ->). cbn [bind].
      set (k := if sub then 2 * i + 1 else i) in *. assert (0 <= k) as Hk0 by (unfold k; destruct sub; lia).
      rewrite idx_ok by lia. cbn [bind]. rewrite upd_ok by lia. cbn [bind]. eexists. split; [reflexivity|]. cbn [snd]. rewrite <- Lp3. apply (upd_len p3 _ k (Z.lor (znth p3 k) b)). apply upd_ok. lia.
    + cbn [bind]. eexists. split; [reflexivity|]. exact Q'.
  - cbn [bind]. exists pal'. split; [reflexivity|]. exact Q.
Qed.

Lemma u_bits_calm md s cd : serves m inc md 8191 -> steady cd -> calm inc (fun st => steady (snd st)) (unity_selector_bits m md (s, cd)).
Proof.
  intros Hs Sc. unfold unity_selector_bits. apply calm_for_list; [exact Sc|]. intros j [a0 c0] Hj S. cbn [snd] in S. assert (0 <= j < 32) as Hj2 by (cbn in Hj; lia).
  eapply decode_calm2; [exact Hs|exact S|]. intros x c' Hx S'. rewrite ushl_ok by lia. cbn [bind calm snd]. exact S'.
Qed.
Lemma u_color_sels_calm s i : coding s i -> has_word s -> (incomplete s -> inc) ->
  palette_starts data (h_color_selectors h) i -> calm inc (fun _ => True) (unity_color_selectors m data h).
Proof.
  intros C W I Hs. destruct (open_start _ _ _ _ Hb Hs) as (src & c & rest & E1 & E2 & Bf & R & F).
  unfold unity_color_selectors. rewrite E1. cbn [bind]. rewrite E2. cbn [bind]. rewrite <- (app_nil_r i) in Bf, F.
  destruct (take_code m inc c rest s i [] c 8191 R C F Bf W (below_all _ _ C) I) as (md & c1 & -> & P & B1 & _). cbn [bind].
  pose proof (proj1 (number_num data 41 Hb)) as Hn. change (palette_at data 41) with (h_color_selectors h) in Hn. set (n := p_num (h_color_selectors h)) in *.
  assert (Z.shiftl n 1 = 2 * n) as E3 by (rewrite Z.shiftl_mul_pow2 by lia; change (2 ^ 1) with 2; lia). rewrite E3.
  set (size := if has_subblocks (h_format h) then 2 * n else n).
  eapply calm_bind; [apply (calm_for_range inc (fun _ (st : Z * list Z * codec) => zlen (snd (fst st)) = size /\ steady (snd st)) _ n 0)|].
  - cbn [fst snd]. split; [unfold zlen; rewrite repeat_length, Z2Nat.id by (unfold size; destruct (has_subblocks (h_format h)); lia); reflexivity|exact (before_steady _ _ _ R B1)].
  - exact Hn.
  - intros j [[a pal] cd] Hj [A S]. cbn [fst snd] in A, S. eapply calm_bind; [exact (u_bits_calm md a cd P S)|]. intros [s' cd'] S'. cbn [snd] in S'.
    apply calm_bind with (P := fun pal' => zlen pal' = size); [|intros pal' L; cbn [calm fst snd]; auto].
    destruct (has_etc_color_blocks (h_format h)) eqn:Eb.
    + destruct (etc_selectors_any (has_subblocks (h_format h)) j s' pal) as (pal' & -> & L); [lia| |cbn [calm]; lia]. rewrite A. unfold size. destruct (has_subblocks (h_format h)); lia.
    + assert (j < zlen pal) as Hj2 by (rewrite A; unfold size; destruct (has_subblocks (h_format h)); lia).
      match goal with |- calm _ _ (upd pal j ?v) => rewrite (upd_ok pal j v) by lia; cbn [calm]; rewrite <- A; apply (upd_len pal _ j v), upd_ok; lia end.
  - intros [[a pal] cd] _. exact Logic.I.
Qed.

Lemma u_half_calm md lin cd : serves m inc md 8191 -> steady cd -> calm inc (fun st => steady (snd st)) (unity_alpha_half m (tab 64 alpha_pair) md (lin, cd)).
Proof.
  intros Hs Sc. unfold unity_alpha_half. apply calm_for_list; [exact Sc|]. intros j [[a0 b0] c0] Hj S. cbn [snd] in S. assert (0 <= j < 32) as Hj2 by (cbn in Hj; lia).
  eapply decode_calm2; [exact Hs|exact S|]. intros x c' Hx S'. rewrite ushl_ok by lia. cbn [bind].
  match goal with |- context [Z.land ?z 63] => rewrite idx_tab by (pose proof (land_below z 63 ltac:(lia)); lia) end. cbn [bind calm snd]. exact S'.
Qed.
Lemma u_alpha_sels_calm s i : coding s i -> has_word s -> (incomplete s -> inc) ->
  palette_starts data (h_alpha_selectors h) i -> calm inc (fun _ => True) (unity_alpha_selectors m data h).
Proof.
  intros C W I Hs. destruct (open_start _ _ _ _ Hb Hs) as (src & c & rest & E1 & E2 & Bf & R & F).
  unfold unity_alpha_selectors. rewrite E1. cbn [bind]. rewrite E2. cbn [bind]. rewrite <- (app_nil_r i) in Bf, F.
  destruct (take_code m inc c rest s i [] c 8191 R C F Bf W (below_all _ _ C) I) as (md & c1 & -> & P & B1 & _). cbn [bind]. rewrite pair_table. cbn [bind].
  eapply calm_bind; [apply (calm_for_range inc (fun _ (st : Z * Z * list Z * codec) => steady (snd st)) _ (p_num (h_alpha_selectors h)) 0)|].
  - exact (before_steady _ _ _ R B1).
  - exact (proj1 (number_num data 57 Hb)).
  - intros j [[[l0 l1] pal] cd] Hj S. cbn [snd] in S. eapply calm_bind; [exact (u_half_calm md l0 cd P S)|]. intros [[l0' s0] cd1] S1. cbn [snd] in S1.
    eapply calm_bind; [exact (u_half_calm md l1 cd1 P S1)|]. intros [[l1' s1] cd2] S2. exact S2.
  - intros [[[l0 l1] pal] cd] _. exact Logic.I.
Qed.

Lemma etc_value_calm md p lin group cd : serves m inc md 8191 -> steady cd -> 0 <= p < 16 -> zlen lin = 8 ->
  calm inc (fun r => 0 <= fst r < 8 /\ zlen (fst (fst (snd r))) = 8 /\ steady (snd (snd r))) (etc_alpha_value m md p (lin, group, cd)).
Proof.
  intros Hs Sc Hp Hl. unfold etc_alpha_value.
  apply calm_bind with (P := fun st => zlen (fst (fst st)) = 8 /\ steady (snd st)).
  - destruct (Z.land p 1 =? 1); [cbn [calm fst snd]; auto|]. eapply decode_calm2; [exact Hs|exact Sc|]. intros s c' Hr S.
    assert (0 <= Z.shiftr p 1 < 8) as Hq by (rewrite Z.shiftr_div_pow2 by lia; change (2 ^ 1) with 2; split; [apply Z.div_pos; lia|apply Z.div_lt_upper_bound; lia]).
    rewrite idx_ok by lia. cbn [bind]. match goal with |- context [upd lin ?k ?v] => pose proof (upd_ok lin k v ltac:(lia)) as U; pose proof (upd_len _ _ _ _ U) as L; rewrite U end.
    cbn [bind calm fst snd]. split; [lia|exact S].
  - intros [[lin' group'] cd'] [L S]. cbn [calm fst snd] in *. split; [|auto]. pose proof (land_below group' 7 ltac:(lia)). destruct (Z.leb_spec (Z.land group' 7) 3); lia.
Qed.
Lemma etc_entry_calm md lin pal cd N (wr : Z -> Z -> list Z -> res (list Z)) : serves m inc md 8191 -> steady cd -> zlen lin = 8 -> zlen pal = N -> wordsb pal ->
  (forall p s pal, 0 <= p < 16 -> 0 <= s < 8 -> zlen pal = N -> wordsb pal -> exists pal', wr p s pal = Ok pal' /\ zlen pal' = N /\ wordsb pal') ->
  calm inc (fun st => zlen (fst (fst (fst st))) = 8 /\ (zlen (snd (fst st)) = N /\ wordsb (snd (fst st))) /\ steady (snd st))
    (for_range 0 16 (fun p st =>
      let '(lin, group, pal, cd) := st in
      let* (s, (lin, group, cd)) := etc_alpha_value m md p (lin, group, cd) in
      let* pal := wr p s pal in
      Ok (lin, group, pal, cd)) (lin, 0, pal, cd)).
Proof.
  intros Hs Sc Hl Hn Hw HW.
  apply (calm_for_range inc (fun _ (st : list Z * Z * list Z * codec) => zlen (fst (fst (fst st))) = 8 /\ (zlen (snd (fst st)) = N /\ wordsb (snd (fst st))) /\ steady (snd st)) _ 16 0).
  - cbn [fst snd]. auto.
  - lia.
  - intros p [[[l g] q] c] Hp (L & [Q1 Q2] & S). cbn [fst snd] in L, Q1, Q2, S. eapply calm_bind; [exact (etc_value_calm md p l g c Hs S ltac:(lia) L)|].
    intros [s [[l' g'] c']] (R & L' & S'). cbn [fst snd] in R, L', S'. destruct (HW p s q ltac:(lia) R Q1 Q2) as (q' & -> & Q1' & Q2'). cbn [bind calm fst snd]. auto.
Qed.
Lemma zeros_wordsb n : wordsb (repeat 0 n).
Proof. apply Forall_forall. intros x Hx. apply repeat_spec in Hx. lia. Qed.
Lemma turned_place p : 0 <= p < 16 -> exists q, 0 <= q < 16 /\ 3 * (p + 1) + 9 * (Z.land p 3 - Z.shiftr p 2) = 3 * (q + 1).
Proof.
  intros Hp. change 3 with (Z.ones 2) at 2. rewrite Z.land_ones, Z.shiftr_div_pow2 by lia. change (2 ^ 2) with 4.
  exists (p + 3 * (p mod 4 - p / 4)). pose proof (Z.div_mod p 4). pose proof (Z.mod_pos_bound p 4). assert (0 <= p / 4 < 4) by (split; [apply Z.div_pos; lia|apply Z.div_lt_upper_bound; lia]). lia.
Qed.

Lemma u_etcs_calm s i : coding s i -> has_word s -> (incomplete s -> inc) ->
  palette_starts data (h_alpha_selectors h) i -> calm inc (fun _ => True) (unity_alpha_selectors_etcs m data h).
Proof.
  intros C W I Hs. destruct (open_start _ _ _ _ Hb Hs) as (src & c & rest & E1 & E2 & Bf & R & F).
  unfold unity_alpha_selectors_etcs. rewrite E1. cbn [bind]. rewrite E2. cbn [bind]. rewrite <- (app_nil_r i) in Bf, F.
  destruct (take_code m inc c rest s i [] c 8191 R C F Bf W (below_all _ _ C) I) as (md & c1 & -> & P & B1 & _). cbn [bind].
  pose proof (proj1 (number_num data 57 Hb)) as Hn. change (palette_at data 57) with (h_alpha_selectors h) in Hn. set (n := p_num (h_alpha_selectors h)) in *.
  eapply calm_bind; [apply (calm_for_range inc (fun _ (st : list Z * list Z * codec) => zlen (fst (fst st)) = 8 /\ (zlen (snd (fst st)) = 3 * n + 1 /\ wordsb (snd (fst st))) /\ steady (snd st)) _ n 0)|].
  - cbn [fst snd]. split; [reflexivity|]. split; [split; [unfold zlen; rewrite repeat_length; lia|apply zeros_wordsb]|exact (before_steady _ _ _ R B1)].
  - exact Hn.
  - intros j [[lin pal] cd] Hj (L & [Q1 Q2] & S). cbn [fst snd] in L, Q1, Q2, S.
    eapply calm_bind; [apply (etc_entry_calm md lin pal cd (3 * n + 1) (fun p s pal => write_or_bits m pal (6 * j) (3 * (p + 1) + 9 * (Z.land p 3 - Z.shiftr p 2)) s) P S L Q1 Q2)|].
    + intros p x q Hp Hx G1 G2. destruct (turned_place p Hp) as (t & Ht & ->). destruct (write_or_bits_ok m q (6 * j) t x G2 ltac:(lia) Ht Hx ltac:(lia)) as (q' & E & G3 & G4 & _).
      exists q'. split; [exact E|]. split; [lia|exact G4].
    + intros [[[l g] q] c'] (G1 & G2 & G3). cbn [calm fst snd] in *. auto.
  - intros [[l q] c'] _. exact Logic.I.
Qed.
Lemma u_etc_calm s i : coding s i -> has_word s -> (incomplete s -> inc) ->
  palette_starts data (h_alpha_selectors h) i -> calm inc (fun _ => True) (unity_alpha_selectors_etc m data h).
Proof.
  intros C W I Hs. destruct (open_start _ _ _ _ Hb Hs) as (src & c & rest & E1 & E2 & Bf & R & F).
  unfold unity_alpha_selectors_etc. rewrite E1. cbn [bind]. rewrite E2. cbn [bind]. rewrite <- (app_nil_r i) in Bf, F.
  destruct (take_code m inc c rest s i [] c 8191 R C F Bf W (below_all _ _ C) I) as (md & c1 & -> & P & B1 & _). cbn [bind].
  pose proof (proj1 (number_num data 57 Hb)) as Hn. change (palette_at data 57) with (h_alpha_selectors h) in Hn. set (n := p_num (h_alpha_selectors h)) in *.
  eapply calm_bind; [apply (calm_for_range inc (fun _ (st : list Z * list Z * codec) => zlen (fst (fst st)) = 8 /\ (zlen (snd (fst st)) = 6 * n + 1 /\ wordsb (snd (fst st))) /\ steady (snd st)) _ n 0)|].
  - cbn [fst snd]. split; [reflexivity|]. split; [split; [unfold zlen; rewrite repeat_length; lia|apply zeros_wordsb]|exact (before_steady _ _ _ R B1)].
  - exact Hn.
  - intros j [[lin pal] cd] Hj (L & [Q1 Q2] & S). cbn [fst snd] in L, Q1, Q2, S.
    pose proof (etc_entry_calm md lin pal cd (6 * n + 1) (fun p s pal => let* pal := write_or_bits m pal (12 * j) (3 * (p + 1)) s in write_or_bits m pal (12 * j + 6) (3 * (p + 1) + 9 * (Z.land p 3 - Z.shiftr p 2)) s) P S L Q1 Q2) as G.
    eapply calm_bind; [erewrite for_range_ext; [apply G|]|].
    + intros p x q Hp Hx G1 G2. destruct (write_or_bits_ok m q (12 * j) p x G2 ltac:(lia) Hp Hx ltac:(lia)) as (q1 & -> & L1 & W1 & _). cbn [bind].
      destruct (turned_place p Hp) as (t & Ht & ->). destruct (write_or_bits_ok m q1 (12 * j + 6) t x W1 ltac:(lia) Ht Hx ltac:(lia)) as (q' & E & G3 & G4 & _).
      exists q'. split; [exact E|]. split; [lia|exact G4].
    + intros p [[[l g] q] c'] _. destruct (etc_alpha_value m md p (l, g, c')) as [[x [[l' g'] c2]]| |]; cbn [bind]; [|reflexivity|reflexivity].
      destruct (write_or_bits m q (12 * j) (3 * (p + 1)) x); reflexivity.
    + intros [[[l g] q] c'] (G1 & G2 & G3). cbn [calm fst snd] in *. auto.
  - intros [[l q] c'] _. exact Logic.I.
Qed.
End Palettes.

Lemma u_init_calm m data sizes q : u_codes_written data sizes q -> u_sturdy m data q ->
  calm (u_palette_gap data q) (fun u => (u_data u = data /\ u_data_size u = zlen data /\ u_header u = header_at data) /\
      forall x, kind_used data x -> prepare_decoder_tables m (sizes x) = Ok (dm_of u x) /\ code_lengths (sizes x))
    (unity_init m data (zlen data)).
Proof.
  intros (Hb & L & Rm & WF & HH & HT & HC & HA) [SC SA].
  destruct (tables_exact m data _ Hb HH HT) as (first & e0 & s0 & e1 & s1 & ET & P0 & P1 & P2). cbn [k_sizes only_codes] in P0, P1, P2.
  assert (forall x, kind_used data x -> code_lengths (sizes x)) as CL.
  { destruct HT as (i & ie & is_ & je & js & C0 & C1 & C2 & _). cbn [k_sizes only_codes] in C0, C1, C2.
    intros x Hx. destruct x; cbn [kind_used] in Hx; try (apply C1 in Hx); try (apply C2 in Hx); unfold coding in *; tauto. }
  unfold unity_init. rewrite (header_code data Hb). destruct (Z.ltb_spec (zlen data) 74); [lia|]. destruct (Z.ltb_spec (zlen data) (header_room data)); [lia|].
  rewrite WF. cbn [bind]. rewrite ET. cbn [bind]. set (h := header_at data) in *. unfold u_palette_gap. change (number data 18 1) with (h_format h) in *.
  apply calm_bind with (P := fun _ => True).
  { unfold has_color in HC, SC. fold h in HC, SC. destruct (Z.eqb_spec (p_num (h_color_endpoints h)) 0) as [E|E]; cbn [negb]; [exact Logic.I|].
    destruct (HC E) as (V & (i & C & V2)). destruct (SC E) as (W5 & W & W6 & B).
    apply calm_bind with (P := fun _ => True).
    - destruct (is_etc (h_format h)) eqn:Et.
      + destruct V as (i5 & C5 & V1). apply (u_etc_ends_calm m _ data Hb (q_five q) i5 Et C5 W5 (B eq_refl)); [intros G; left; auto|exact V1].
      + destruct V as (i5 & i6 & C5 & C6 & V1). apply (u_color_ends_calm m _ data Hb (q_five q) (q_six q) i5 i6 Et C5 C6 W5 (W6 eq_refl)); [intros G; left; auto|intros G; left; auto|exact V1].
    - intros ce _. eapply calm_bind; [apply (u_color_sels_calm m _ data Hb (q_color q) i C W); [intros G; left; auto|exact V2]|]. intros cs _. exact Logic.I. }
  intros [ce cs] _. apply calm_bind with (P := fun _ => True).
  { unfold has_alpha in HA, SA. fold h in HA, SA. destruct (Z.eqb_spec (p_num (h_alpha_endpoints h)) 0) as [E|E]; cbn [negb]; [exact Logic.I|].
    destruct (HA E) as ((i8 & C8 & V1) & (i & C & V2)). destruct (SA E) as (W8 & W).
    eapply calm_bind; [apply (alpha_ends_calm m _ data Hb (q_byte q) i8 C8 W8); [intros G; right; auto|exact V1]|]. intros ae _.
    apply calm_bind with (P := fun _ => True); [|intros al _; exact Logic.I].
    destruct (h_format h =? FmtEtc2as); [|destruct (h_format h =? FmtEtc2a)].
    - apply (u_etcs_calm m _ data Hb (q_alpha q) i C W); [intros G; right; auto|exact V2].
    - apply (u_etc_calm m _ data Hb (q_alpha q) i C W); [intros G; right; auto|exact V2].
    - apply (u_alpha_sels_calm m _ data Hb (q_alpha q) i C W); [intros G; right; auto|exact V2]. }
  intros [ae al] _. cbn [calm]. split; [auto|]. intros x Hx. split; [|apply CL, Hx].
  destruct x; cbn [kind_used] in Hx; unfold dm_of; cbn [u_first_dm u_endpoint_dm0 u_endpoint_dm1 u_selector_dm0 u_selector_dm1]; try (apply P1 in Hx; tauto); try (apply P2 in Hx; tauto). exact P0.
Qed.

Lemma u_codes_safe m d sizes q level : let f := number d 18 1 in
  let W := level_cols (number d 12 2) level in let H := level_cols (number d 14 2) level in let faces := number d 17 1 in
  u_codes_written d sizes q -> u_sturdy m d q -> 0 <= level < 16 -> level < levels_of d ->
  level_start d level < level_stop d level -> level_stop d level <= zlen d ->
  1 <= faces -> faces = 1 \/ H mod 2 = 0 -> m = Wrapping \/ W mod 2 = 0 -> W * H * u_block_size f < 2 ^ 32 ->
  u_draws_color f || u_draws_alpha f = true -> u_robust d sizes ->
  u_palette_gap d q /\ unity_crunch_unpack_level m d (zlen d) level = Err "Failed to initialize Crunch decompressor." \/
  exists ce cs ae al, u_palette_sizes d ce cs ae al /\ (has_halves f = true -> Forall five_bits ce) /\
  safe (exists x, In x (u_kinds f) /\ incomplete (sizes x)) (u_lost_in f)
    (fun r => fst r = f /\ exists block, (forall q, 0 <= q < faces * H * W -> u_drawable f ce cs ae al (block q)) /\ snd r = flat_map block (zrange 0 (faces * H * W)))
    (unity_crunch_unpack_level m d (zlen d) level).
Proof.
  intros f W H faces HCW HSt Hl HL H1 H2 HF HS HM HZ Hd HR. pose proof (u_init_calm m d sizes q HCW HSt) as IC.
  pose proof HCW as (Hb & L74 & LR & WF & _).
  destruct (unity_init m d (zlen d)) as [u|e|] eqn:Ei; cbn [calm] in IC; [right|left|contradiction].
  2:{ split; [exact IC|]. assert (f = 0 \/ 2 <= f <= 14) as Pf by (unfold u_draws_color, u_draws_alpha, is_etc in Hd; lia).
    unfold unity_crunch_unpack_level. rewrite (info_code d Hb). destruct (Z.ltb_spec (zlen d) 74); [lia|]. destruct (Z.ltb_spec (zlen d) (header_room d)); [lia|].
    rewrite WF. cbn [andb].
    assert (znth d 18 = f) as E18. { unfold f, number. change (zrange 0 1) with [0]. cbn [fold_right]. change (18 + 0) with 18. change (256 ^ (1 - 1 - 0)) with 1. lia. }
    rewrite E18. destruct (Z.leb_spec f 15); [|lia]. cbn [or_err bind]. unfold unity_unpack_begin. change CRNHEADER_MIN_SIZE with 62. destruct (Z.ltb_spec (zlen d) 62); [lia|].
    rewrite Ei. reflexivity. }
  destruct IC as ((U1 & U2 & Eh) & HK).
  assert (unity_unpack_begin m d (zlen d) = Ok u) as Eu.
  { unfold unity_unpack_begin. change CRNHEADER_MIN_SIZE with 62. destruct (Z.ltb_spec (zlen d) 62); [lia|]. rewrite Ei. reflexivity. }
  destruct (u_init_palettes m d u Hb Ei) as (S & S5 & VE & VA).
  exists (u_color_endpoints u), (u_color_selectors u), (u_alpha_endpoints u), (u_alpha_selectors u). split; [exact S|]. split; [exact S5|].
  assert (forall x, In x (u_kinds f) -> kind_used d x) as KU.
  { intros x Hx. destruct HR as (_ & R1 & R2). fold f in R1, R2. unfold u_kinds in Hx. destruct Hx as [<-|Hx]; [exact Logic.I|]. apply in_app_or in Hx.
    assert (u_draws_color f = true -> has_color d) as HC by (intros D; destruct (proj1 (R1 D)) as [M _]; unfold has_color; intros Z0; change (number d 39 2 = 0) in Z0; lia).
    assert (u_draws_alpha f = true -> has_alpha d) as HA by (intros D; destruct (proj1 (R2 D)) as [M _]; unfold has_alpha; intros Z0; change (number d 55 2 = 0) in Z0; lia).
    destruct Hx as [Hx|Hx]; [destruct (u_draws_color f); [|contradiction]|destruct (u_draws_alpha f); [|contradiction]]; destruct Hx as [<-|[<-|[]]]; cbn [kind_used]; auto. }
  assert (forall x, In x (u_kinds f) -> prepare_decoder_tables m (sizes x) = Ok (dm_of u x) /\ code_lengths (sizes x)) as HK' by (intros x Hx; apply HK, KU, Hx).
  pose proof (number_range d (70 + 4 * level) 4 Hb ltac:(lia)) as N0. fold (level_start d level) in N0.
  assert (f = 0 \/ 2 <= f <= 14) as Pf by (unfold u_draws_color, u_draws_alpha, is_etc in Hd; lia).
  unfold unity_crunch_unpack_level. rewrite (info_code d Hb). destruct (Z.ltb_spec (zlen d) 74); [lia|]. destruct (Z.ltb_spec (zlen d) (header_room d)); [lia|].
  rewrite WF. cbn [andb].
  assert (znth d 18 = f) as E18. { unfold f, number. change (zrange 0 1) with [0]. cbn [fold_right]. change (18 + 0) with 18. change (256 ^ (1 - 1 - 0)) with 1. lia. }
  rewrite E18. destruct (Z.leb_spec f 15); [|lia]. cbn [or_err bind]. rewrite Eu. cbn [bind i_width i_height i_format info_at].
  pose proof (number_range d 12 2 Hb ltac:(lia)) as Nw. pose proof (number_range d 14 2 Hb ltac:(lia)) as Nh.
  destruct (level_cols_eq (number d 12 2) level ltac:(lia) ltac:(lia)) as [E1 HW]. destruct (level_cols_eq (number d 14 2) level ltac:(lia) ltac:(lia)) as [E2 HH].
  rewrite (Z.max_comm 1 (Z.shiftr (number d 12 2) level)), (Z.max_comm 1 (Z.shiftr (number d 14 2) level)), E1, E2. fold W in HW |- *. fold H in HH |- *.
  rewrite !(Z.max_r 1) by lia. fold f.
  assert (unity_bytes_per_dxt_block f = Ok (u_block_size f)) as ->.
  { assert (f = 0 \/ f = 2 \/ f = 3 \/ f = 4 \/ f = 5 \/ f = 6 \/ f = 7 \/ f = 8 \/ f = 9 \/ f = 10 \/ f = 11 \/ f = 12 \/ f = 13 \/ f = 14) as Q by lia.
    repeat (destruct Q as [->|Q]; [reflexivity|]). rewrite Q. reflexivity. }
  cbn [bind]. assert (u_block_size f = 8 \/ u_block_size f = 16) as HB by (unfold u_block_size; match goal with |- context [if ?b then _ else _] => destruct b end; auto).
  assert (W * u_block_size f * H < 2 ^ 32) as HT by (replace (W * u_block_size f * H) with (W * H * u_block_size f) by ring; exact HZ).
  pose proof (u_level_2_safe m d u level (sizes) Hb HK' HR S S5 VE VA (skipn (Z.to_nat (level_start d level)) d) (level_stop d level - level_start d level) Eh ltac:(lia) HF HS HM HT Hd
    ltac:(apply bytes_skipn, Hb) ltac:(rewrite zlen_skipn by lia; lia)) as L2.
  fold f faces W H in L2. set (B := u_block_size f) in *.
  assert (0 <= W * B * H < 2 ^ 32) as Ht by (split; [nia|exact HT]).
  rewrite (ua_ok m 32 (W * B)) by nia. cbn [bind]. rewrite ua_ok by lia. cbn [bind].
  unfold unity_crnd_unpack_level. change CRNMAX_LEVELS with 16.
  destruct (Z.ltb_spec (W * B * H) 8); [nia|]. destruct (Z.leb_spec 16 level); [lia|]. cbn [orb].
  rewrite (level_source_ok u d level U1 U2 Eh) by lia. cbn [bind].
  destruct (unity_unpack_level_2 m u _ _ _ _ _) as [out|e|]; cbn [safe bind fst snd] in *; [split; [reflexivity|exact L2]|exact L2|exact L2].
Qed.

