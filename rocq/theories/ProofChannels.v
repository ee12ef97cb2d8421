(** * Proofs about the channels a format has. *)
From Verif Require Import Base BaseLemmas ModelColor SpecImage SpecBc SpecEtc SpecCut ProofCut SpecChannels.

Lemma pixels raw tex dec (P : Z -> Prop) : 0 < raw -> image_decoder 4 4 raw tex dec ->
  (forall b t, bytes b -> 0 <= t < 16 -> 0 <= tex b t < 2 ^ 32 /\ P (tex b t)) -> every_pixel raw dec P.
Proof.
  intros Hr HD HP data w h image image' S E x y Hx Hy.
  destruct (decodes_done 4 4 raw (fun _ => True) tex dec data w h image image' (decodes_all _ _ _ _ _ HD) S (fun _ _ => I) E) as (_ & _ & _ & PP & _).
  rewrite PP by assumption. apply HP; [unfold block_bytes; apply bytes_firstn, bytes_skipn; exact (proj1 S)|].
  clear. Z.to_euclidean_division_equations; lia.
Qed.
Lemma channels r g b a : is_byte r -> is_byte g -> is_byte b -> is_byte a ->
  0 <= rgba r g b a < 2 ^ 32 /\ red (rgba r g b a) = r /\ green (rgba r g b a) = g /\ blue (rgba r g b a) = b /\ alpha (rgba r g b a) = a.
Proof.
  unfold is_byte, rgba, red, green, blue, alpha. intros Hr Hg Hb Ha. change (2 ^ 32) with 4294967296. Z.to_euclidean_division_equations; lia.
Qed.
Lemma byte_0 : is_byte 0. Proof. unfold is_byte. lia. Qed.
Lemma byte_255 : is_byte 255. Proof. unfold is_byte. lia. Qed.

Lemma rep5_byte v : 0 <= v < 32 -> is_byte (rep5 v). Proof. unfold is_byte, rep5. intros. Z.to_euclidean_division_equations; lia. Qed.
Lemma rep6_byte v : 0 <= v < 64 -> is_byte (rep6 v). Proof. unfold is_byte, rep6. intros. Z.to_euclidean_division_equations; lia. Qed.
Lemma le16_u16 b o : bytes b -> 0 <= le16 b o < 65536.
Proof. intros H. unfold le16. pose proof (bytes_znth b o H). pose proof (bytes_znth b (o + 1) H). lia. Qed.
Lemma c565 c : 0 <= c < 65536 -> is_byte (red565 c) /\ is_byte (green565 c) /\ is_byte (blue565 c).
Proof.
  intros H. unfold red565, green565, blue565. repeat split; try apply rep5_byte; try apply rep6_byte; try (apply Z.mod_pos_bound; lia); Z.to_euclidean_division_equations; lia.
Qed.
Lemma mix_byte four e0 e1 s : is_byte e0 -> is_byte e1 -> is_byte (bc1_mix four e0 e1 s).
Proof. unfold is_byte, bc1_mix. intros. destruct (s =? 0), (s =? 1), (s =? 2), four; Z.to_euclidean_division_equations; lia. Qed.
Lemma bc1_bytes b o t : bytes b -> is_byte (bc1_r b o t) /\ is_byte (bc1_g b o t) /\ is_byte (bc1_b b o t).
Proof.
  intros H. destruct (c565 _ (le16_u16 b o H)) as (R0 & G0 & B0). destruct (c565 _ (le16_u16 b (o + 2) H)) as (R1 & G1 & B1).
  unfold bc1_r, bc1_g, bc1_b. repeat split; apply mix_byte; assumption.
Qed.
Lemma ramp_byte a0 a1 s : is_byte a0 -> is_byte a1 -> 0 <= s < 8 -> is_byte (ramp a0 a1 s).
Proof.
  unfold is_byte, ramp. intros H0 H1 Hs. assert (s = 0 \/ s = 1 \/ s = 2 \/ s = 3 \/ s = 4 \/ s = 5 \/ s = 6 \/ s = 7) as C by lia.
  decompose [or] C; subst s; cbn [Z.eqb Pos.eqb]; destruct (a1 <? a0); Z.to_euclidean_division_equations; lia.
Qed.
Lemma interp8_byte b o t : bytes b -> is_byte (interp8 b o t).
Proof. intros H. unfold interp8. apply ramp_byte; [exact (bytes_znth b _ H)|exact (bytes_znth b _ H)|]. apply Z.mod_pos_bound. lia. Qed.
Lemma bc2_alpha_byte b t : bytes b -> is_byte (bc2_alpha b t) /\ bc2_alpha b t mod 17 = 0.
Proof.
  intros H. unfold bc2_alpha, is_byte. pose proof (Z.mod_pos_bound (znth b (t / 2) / 16 ^ (t mod 2)) 16 ltac:(lia)). split; [lia|]. rewrite Z.mul_comm, Z.mod_mul; lia.
Qed.
Lemma atc_mix_byte mode x y s : is_byte x -> is_byte y -> is_byte (atc_mix atc_dark_code mode x y s).
Proof. unfold is_byte, atc_mix, atc_dark_code. intros. destruct mode, (s =? 0), (s =? 1), (s =? 2); Z.to_euclidean_division_equations; lia. Qed.
Lemma atc_ok b o t a : bytes b -> is_byte a -> 0 <= atc_rgb atc_dark_code b o t a < 2 ^ 32 /\ alpha (atc_rgb atc_dark_code b o t a) = a.
Proof.
  intros H Ha. unfold atc_rgb. cbn zeta. destruct (c565 _ (le16_u16 b (o + 2) H)) as (R1 & G1 & B1).
  match goal with |- 0 <= rgba ?r ?g ?b a < _ /\ _ => destruct (channels r g b a) as (U & _ & _ & _ & A) end; [| | |exact Ha|split; assumption];
    apply atc_mix_byte; try assumption; unfold atc_r0, atc_g0, atc_b0; apply rep5_byte; apply Z.mod_pos_bound; lia.
Qed.

Lemma clamp8_byte v : is_byte (clamp8 v). Proof. unfold is_byte, clamp8. lia. Qed.
Lemma add_rgb_ok c d : 0 <= add_rgb c d 255 < 2 ^ 32 /\ alpha (add_rgb c d 255) = 255.
Proof. unfold add_rgb. destruct (channels (clamp8 (c 0 + d)) (clamp8 (c 1 + d)) (clamp8 (c 2 + d)) 255) as (U & _ & _ & _ & A); try apply clamp8_byte; [apply byte_255|]. split; assumption. Qed.
Lemma planar_ok w t : 0 <= planar_texel w t < 2 ^ 32 /\ alpha (planar_texel w t) = 255.
Proof.
  unfold planar_texel. destruct (channels (planar_value w 0 (t mod 4) (t / 4)) (planar_value w 1 (t mod 4) (t / 4)) (planar_value w 2 (t mod 4) (t / 4)) 255) as (U & _ & _ & _ & A); try apply clamp8_byte; [apply byte_255|]. split; assumption.
Qed.
Lemma t_ok w t : 0 <= t_texel w t < 2 ^ 32 /\ alpha (t_texel w t) = 255.
Proof. unfold t_texel. cbn zeta. destruct (_ =? 0); [apply add_rgb_ok|]. destruct (_ =? 1); [apply add_rgb_ok|]. destruct (_ =? 2); apply add_rgb_ok. Qed.
Lemma etc1_ok b t : 0 <= etc1_wrap_texel b t < 2 ^ 32 /\ alpha (etc1_wrap_texel b t) = 255.
Proof. unfold etc1_wrap_texel. cbn zeta. destruct (etc_diff _); apply add_rgb_ok. Qed.
Lemma etc2_ok b o t : 0 <= etc2_texel b o t < 2 ^ 32 /\ alpha (etc2_texel b o t) = 255.
Proof.
  unfold etc2_texel. cbn zeta. destruct (negb _); [apply add_rgb_ok|]. destruct (overflows _ 0); [apply t_ok|]. destruct (overflows _ 1); [apply add_rgb_ok|]. destruct (overflows _ 2); [apply planar_ok|apply add_rgb_ok].
Qed.
Lemma etc2a_color_ok w t : 0 <= etc2a_color w t < 2 ^ 32 /\ alpha (etc2a_color w t) = 255.
Proof.
  unfold etc2a_color. destruct (overflows _ 0); [apply t_ok|]. destruct (overflows _ 1); [apply add_rgb_ok|]. destruct (overflows _ 2); [apply planar_ok|apply add_rgb_ok].
Qed.
Lemma etc2a_ok b t : 0 <= etc2a_code_texel b t < 2 ^ 32 /\ punched (etc2a_code_texel b t).
Proof.
  unfold etc2a_code_texel. cbn zeta. destruct (etc2a_color_ok (etc_word b 0) t) as [U A]. unfold punched. destruct (etc2a_clear _ t); [|auto].
  change (2 ^ 32) with 4294967296 in *. unfold alpha in *. split; [|left]; Z.to_euclidean_division_equations; lia.
Qed.
Lemma value11_byte w i : is_byte (eac_value11 w i / 8).
Proof. unfold is_byte, eac_value11, clamp_to. Z.to_euclidean_division_equations; lia. Qed.
Lemma red_byte b o t : is_byte (eac_code_red b o t). Proof. apply value11_byte. Qed.
Lemma red_s_byte b o t : is_byte (eac_code_red_s b o t).
Proof. unfold is_byte, eac_code_red_s, clamp_to. cbn zeta. Z.to_euclidean_division_equations; lia. Qed.
Lemma red_ok r : is_byte r -> 0 <= rgba r 0 0 255 < 2 ^ 32 /\ red_only (rgba r 0 0 255).
Proof. intros Hr. destruct (channels r 0 0 255 Hr byte_0 byte_0 byte_255) as (U & _ & G & B & A). split; [exact U|]. split; [exact A|]. auto. Qed.
Lemma red_green_ok r g : is_byte r -> is_byte g -> 0 <= rgba r g 0 255 < 2 ^ 32 /\ red_green_only (rgba r g 0 255).
Proof. intros Hr Hg. destruct (channels r g 0 255 Hr Hg byte_0 byte_255) as (U & _ & G & B & A). split; [exact U|]. split; [exact A|exact B]. Qed.
Lemma bc1_ok b o t a : bytes b -> is_byte a -> let v := rgba (bc1_r b o t) (bc1_g b o t) (bc1_b b o t) a in 0 <= v < 2 ^ 32 /\ alpha v = a.
Proof. intros H Ha. cbn zeta. destruct (bc1_bytes b o t H) as (R & G & B). destruct (channels _ _ _ a R G B Ha) as (U & _ & _ & _ & A). split; assumption. Qed.
Lemma bc1a_ok b t : bytes b -> 0 <= bc1a_texel b t < 2 ^ 32 /\ punched (bc1a_texel b t).
Proof.
  intros H. unfold bc1a_texel, punched. destruct (_ && _).
  - destruct (bc1_ok b 0 t 0 H byte_0) as [U A]. auto.
  - destruct (bc1_ok b 0 t 255 H byte_255) as [U A]. auto.
Qed.
