(** * C89: exactly which pictures EAC R11 and RG11 decoding shows *)
From Verif Require Import Base BaseLemmas ModelColor ModelEtc SpecImage SpecBc SpecEtc SpecCut SpecEncode SpecContent SpecContentEac ProofContentEac ProofSolidEac.

Theorem C89_r11 m : composes_exactly 8 (r11_pattern false) (decode_eacr m).
Proof. exact (r11_exactly m false). Qed.
Theorem C89_r11_signed m : composes_exactly 8 (r11_pattern true) (decode_eacr_signed m).
Proof. exact (r11_exactly m true). Qed.
Theorem C89_rg11 m : composes_exactly 16 (rg11_pattern false) (decode_eacrg m).
Proof. exact (rg11_exactly m false). Qed.
Theorem C89_rg11_signed m : composes_exactly 16 (rg11_pattern true) (decode_eacrg_signed m).
Proof. exact (rg11_exactly m true). Qed.
Print Assumptions C89_r11.
Print Assumptions C89_rg11_signed.
(** Pictures of one red: only some reds have data. *)
Theorem C89_solid_code m w h r : 4 <= w < 2 ^ 64 -> 4 <= h < 2 ^ 64 -> blocks w 4 * blocks h 4 * 8 < 2 ^ 63 -> 4 * (w * h) < 2 ^ 63 -> 0 <= r < 256 ->
  (shows_solid (decode_eacr m) w h (rgba r 0 0 255) <-> In r solid_reds).
Proof. exact (one_red m false w h r). Qed.
Theorem C89_solid_signed_code m w h r : 4 <= w < 2 ^ 64 -> 4 <= h < 2 ^ 64 -> blocks w 4 * blocks h 4 * 8 < 2 ^ 63 -> 4 * (w * h) < 2 ^ 63 -> 0 <= r < 256 ->
  (shows_solid (decode_eacr_signed m) w h (rgba r 0 0 255) <-> In r solid_reds_signed).
Proof. exact (one_red m true w h r). Qed.
Print Assumptions C89_solid_code.
Print Assumptions C89_solid_signed_code.
(** In the format each red has a block of its own. *)
Theorem C89_solid_format r : 0 <= r < 256 -> exists b, bytes b /\ zlen b = 8 /\ forall t, 0 <= t < 16 -> eac_red b 0 t = r.
Proof.
  intros Hr. exists (solid_block r). split; [repeat constructor; unfold is_byte; lia|]. split; [reflexivity|].
  intros t Ht. apply solid_format; assumption.
Qed.
Print Assumptions C89_solid_format.

Example C89_counts_ex : zlen solid_reds = 111 /\ zlen solid_reds_signed = 15.
Proof. split; reflexivity. Qed.
Example C89_solid_ex m : shows_solid (decode_eacr m) 9 6 (rgba 21 0 0 255) /\ ~ shows_solid (decode_eacr m) 9 6 (rgba 200 0 0 255) /\
  shows_solid (decode_eacr_signed m) 9 6 (rgba 200 0 0 255) /\ ~ shows_solid (decode_eacr_signed m) 9 6 (rgba 21 0 0 255).
Proof.
  split; [|split; [|split]].
  - apply C89_solid_code; [lia|lia|vm_compute; reflexivity|vm_compute; reflexivity|lia|cbn; tauto].
  - rewrite C89_solid_code by first [lia|vm_compute; reflexivity]. cbn. lia.
  - apply C89_solid_signed_code; [lia|lia|vm_compute; reflexivity|vm_compute; reflexivity|lia|cbn; tauto].
  - rewrite C89_solid_signed_code by first [lia|vm_compute; reflexivity]. cbn. lia.
Qed.
(** A block that is not of one colour: base 83, multiplier 2, table 5; the right
    column has the choices 3, 2, 5 and 2. *)
Definition ramp_i (t : Z) : Z := if t =? 15 then 3 else if t =? 11 then 2 else if t =? 7 then 5 else if t =? 3 then 2 else if t =? 14 then 2 else if t =? 10 then 6 else t mod 8.
Example C89_pattern_ex : eac_pattern false (fun t => eac_shown false 83 2 5 (ramp_i t)) /\ map (fun t => eac_shown false 83 2 5 (ramp_i t)) [0; 1; 2; 3; 10; 15] = [77; 69; 65; 65; 99; 61].
Proof.
  split; [|vm_compute; reflexivity]. exists 83, 2, 5, ramp_i. split; [lia|]. split; [lia|]. split; [lia|]. split; [|split; [vm_compute; reflexivity|reflexivity]].
  intros t Ht. unfold ramp_i. repeat match goal with |- context [if ?c then _ else _] => destruct c end; try lia. apply Z.mod_pos_bound. lia.
Qed.
