(** * Specification of ETC1, ETC2 and EAC blocks, after the Khronos data format
    specification.  A 64-bit block is the big-endian number [etc_word]; bit
    fields are named by their highest and lowest bit number. *)
From Verif Require Import Base BaseLemmas SpecBc.

Definition etc_word (b : list Z) (o : Z) : Z :=
  znth b o * 2 ^ 56 + znth b (o + 1) * 2 ^ 48 + znth b (o + 2) * 2 ^ 40 + znth b (o + 3) * 2 ^ 32 +
  znth b (o + 4) * 2 ^ 24 + znth b (o + 5) * 2 ^ 16 + znth b (o + 6) * 2 ^ 8 + znth b (o + 7).

Definition field (w hi lo : Z) : Z := w / 2 ^ lo mod 2 ^ (hi - lo + 1).

Definition clamp8 (v : Z) : Z := Z.max 0 (Z.min 255 v).

(** Expansion of 4- and 7-bit channels ([rep5], [rep6] are in SpecBc). *)
Definition rep4 (v : Z) : Z := v * 17.
Definition rep7 (v : Z) : Z := v * 2 + v / 64.

(** Texel [t] is in row t/4, column t mod 4; ETC numbers pixels column by column. *)
Definition pixel (t : Z) : Z := (t mod 4) * 4 + t / 4.
(** Two-bit pixel index *)
Definition etc_index (w t : Z) : Z :=
  2 * field w (16 + pixel t) (16 + pixel t) + field w (pixel t) (pixel t).

(** Modifier table: small and large magnitude of each codeword. *)
Definition etc_small : list Z := [2; 5; 9; 13; 18; 24; 33; 47].
Definition etc_large : list Z := [8; 17; 29; 42; 60; 80; 106; 183].
Definition etc_modifier (cw i : Z) : Z :=
  if i =? 0 then znth etc_small cw
  else if i =? 1 then znth etc_large cw
  else if i =? 2 then - znth etc_small cw
  else - znth etc_large cw.

(** Sub-block of a texel: left/right halves, or top/bottom ones if flipped. *)
Definition etc_sub (w t : Z) : Z := if field w 32 32 =? 0 then t mod 4 / 2 else t / 4 / 2.
Definition etc_codeword (w s : Z) : Z := if s =? 0 then field w 39 37 else field w 36 34.
Definition etc_diff (w : Z) : bool := field w 33 33 =? 1.

Definition signed3 (v : Z) : Z := if 4 <=? v then v - 8 else v.

(** Channel number ch (0 red, 1 green, 2 blue) of the block's base colours.
    Channel ch occupies bits 63-8ch .. 56-8ch. *)
Definition base5 (w ch : Z) : Z := field w (63 - 8 * ch) (59 - 8 * ch).
Definition delta3 (w ch : Z) : Z := signed3 (field w (58 - 8 * ch) (56 - 8 * ch)).
Definition second5 (w ch : Z) : Z := base5 w ch + delta3 w ch.
Definition overflows (w ch : Z) : bool := (second5 w ch <? 0) || (31 <? second5 w ch).

Definition diff_base (w s ch : Z) : Z := if s =? 0 then rep5 (base5 w ch) else rep5 (second5 w ch).
Definition indiv_base (w s ch : Z) : Z :=
  if s =? 0 then rep4 (field w (63 - 8 * ch) (60 - 8 * ch)) else rep4 (field w (59 - 8 * ch) (56 - 8 * ch)).

Definition add_rgb (c : Z -> Z) (d a : Z) : Z :=
  rgba (clamp8 (c 0 + d)) (clamp8 (c 1 + d)) (clamp8 (c 2 + d)) a.

Definition etc_indiv_texel (w t : Z) : Z :=
  add_rgb (indiv_base w (etc_sub w t)) (etc_modifier (etc_codeword w (etc_sub w t)) (etc_index w t)) 255.
Definition etc_diff_texel (w t : Z) : Z :=
  add_rgb (diff_base w (etc_sub w t)) (etc_modifier (etc_codeword w (etc_sub w t)) (etc_index w t)) 255.

(** ** ETC1 *)
Definition etc1_valid (w : Z) : Prop :=
  etc_diff w = true -> overflows w 0 = false /\ overflows w 1 = false /\ overflows w 2 = false.
Definition etc1_texel (b : list Z) (t : Z) : Z :=
  let w := etc_word b 0 in
  if etc_diff w then etc_diff_texel w t else etc_indiv_texel w t.

(** Second base colours reduced modulo 32: what ETC1 yields for invalid blocks. *)
Definition wrap_base (w s ch : Z) : Z :=
  if s =? 0 then rep5 (base5 w ch) else rep5 (second5 w ch mod 32).
Definition etc1_wrap_texel (b : list Z) (t : Z) : Z :=
  let w := etc_word b 0 in
  if etc_diff w then
    add_rgb (wrap_base w (etc_sub w t)) (etc_modifier (etc_codeword w (etc_sub w t)) (etc_index w t)) 255
  else etc_indiv_texel w t.

(** ** ETC2 *)
Definition etc_distance : list Z := [3; 6; 11; 16; 23; 32; 41; 64].

(** T mode *)
Definition t_base1 (w ch : Z) : Z :=
  rep4 (if ch =? 0 then 4 * field w 60 59 + field w 57 56 else if ch =? 1 then field w 55 52 else field w 51 48).
Definition t_base2 (w ch : Z) : Z :=
  rep4 (if ch =? 0 then field w 47 44 else if ch =? 1 then field w 43 40 else field w 39 36).
Definition t_distance (w : Z) : Z := znth etc_distance (2 * field w 35 34 + field w 32 32).
Definition t_texel (w t : Z) : Z :=
  let i := etc_index w t in
  if i =? 0 then add_rgb (t_base1 w) 0 255
  else if i =? 1 then add_rgb (t_base2 w) (t_distance w) 255
  else if i =? 2 then add_rgb (t_base2 w) 0 255
  else add_rgb (t_base2 w) (- t_distance w) 255.

(** H mode *)
Definition h_color1 (w ch : Z) : Z :=
  if ch =? 0 then field w 62 59
  else if ch =? 1 then 2 * field w 58 56 + field w 52 52
  else 8 * field w 51 51 + field w 49 47.
Definition h_color2 (w ch : Z) : Z :=
  if ch =? 0 then field w 46 43 else if ch =? 1 then field w 42 39 else field w 38 35.
Definition h_value (c : Z -> Z) : Z := c 0 * 256 + c 1 * 16 + c 2.
Definition h_distance (w : Z) : Z :=
  znth etc_distance (4 * field w 34 34 + 2 * field w 32 32 +
                     (if h_value (h_color2 w) <=? h_value (h_color1 w) then 1 else 0)).
Definition h_texel (w t : Z) : Z :=
  let i := etc_index w t in
  add_rgb (fun ch => rep4 (if i <? 2 then h_color1 w ch else h_color2 w ch))
          (if i mod 2 =? 0 then h_distance w else - h_distance w) 255.

(** Planar mode *)
Definition planar_origin (w ch : Z) : Z :=
  if ch =? 0 then rep6 (field w 62 57)
  else if ch =? 1 then rep7 (64 * field w 56 56 + field w 54 49)
  else rep6 (32 * field w 48 48 + 8 * field w 44 43 + field w 41 39).
Definition planar_horiz (w ch : Z) : Z :=
  if ch =? 0 then rep6 (2 * field w 38 34 + field w 32 32)
  else if ch =? 1 then rep7 (field w 31 25)
  else rep6 (field w 24 19).
Definition planar_vert (w ch : Z) : Z :=
  if ch =? 0 then rep6 (field w 18 13)
  else if ch =? 1 then rep7 (field w 12 6)
  else rep6 (field w 5 0).
Definition planar_value (w ch x y : Z) : Z :=
  clamp8 ((x * (planar_horiz w ch - planar_origin w ch) + y * (planar_vert w ch - planar_origin w ch)
           + 4 * planar_origin w ch + 2) / 4).
Definition planar_texel (w t : Z) : Z :=
  rgba (planar_value w 0 (t mod 4) (t / 4)) (planar_value w 1 (t mod 4) (t / 4))
       (planar_value w 2 (t mod 4) (t / 4)) 255.

(** ETC2 RGB block at byte offset [o] *)
Definition etc2_texel (b : list Z) (o t : Z) : Z :=
  let w := etc_word b o in
  if negb (etc_diff w) then etc_indiv_texel w t
  else if overflows w 0 then t_texel w t
  else if overflows w 1 then h_texel w t
  else if overflows w 2 then planar_texel w t
  else etc_diff_texel w t.

(** ** ETC2 with punch-through alpha: bit 33 is the opaque bit. *)
Definition etc2a_modifier (opaque : bool) (cw i : Z) : Z :=
  if opaque then etc_modifier cw i
  else if i =? 1 then znth etc_large cw
  else if i =? 3 then - znth etc_large cw
  else 0.
Definition etc2a_color (w t : Z) : Z :=
  if overflows w 0 then t_texel w t
  else if overflows w 1 then h_texel w t
  else if overflows w 2 then planar_texel w t
  else add_rgb (diff_base w (etc_sub w t))
         (etc2a_modifier (etc_diff w) (etc_codeword w (etc_sub w t)) (etc_index w t)) 255.
(** Which texels are transparent: never in planar mode. *)
Definition etc2a_clear (w t : Z) : bool :=
  negb (etc_diff w) && (etc_index w t =? 2) &&
  (overflows w 0 || overflows w 1 || negb (overflows w 2)).
(** The specification makes transparent texels black. *)
Definition etc2a_texel (b : list Z) (t : Z) : Z :=
  let w := etc_word b 0 in if etc2a_clear w t then 0 else etc2a_color w t.
(** The code keeps their colour: only the alpha byte is cleared. *)
Definition etc2a_code_texel (b : list Z) (t : Z) : Z :=
  let w := etc_word b 0 in
  if etc2a_clear w t then etc2a_color w t - 255 * 16777216 else etc2a_color w t.

(** ** EAC *)
Definition eac_modifiers : list (list Z) :=
  [[-3; -6; -9; -15; 2; 5; 8; 14]; [-3; -7; -10; -13; 2; 6; 9; 12];
   [-2; -5; -8; -13; 1; 4; 7; 12]; [-2; -4; -6; -13; 1; 3; 5; 12];
   [-3; -6; -8; -12; 2; 5; 7; 11]; [-3; -7; -9; -11; 2; 6; 8; 10];
   [-4; -7; -8; -11; 3; 6; 7; 10]; [-3; -5; -8; -11; 2; 4; 7; 10];
   [-2; -6; -8; -10; 1; 5; 7; 9]; [-2; -5; -8; -10; 1; 4; 7; 9];
   [-2; -4; -8; -10; 1; 3; 7; 9]; [-2; -5; -7; -10; 1; 4; 6; 9];
   [-3; -4; -7; -10; 2; 3; 6; 9]; [-1; -2; -3; -10; 0; 1; 2; 9];
   [-4; -6; -8; -9; 3; 5; 7; 8]; [-3; -5; -7; -9; 2; 4; 6; 8]].
Definition eac_base (w : Z) : Z := field w 63 56.
Definition eac_multiplier (w : Z) : Z := field w 55 52.
(** Three-bit index of texel [t]; pixel 0 occupies bits 47..45. *)
Definition eac_index (w t : Z) : Z := field w (47 - 3 * pixel t) (45 - 3 * pixel t).
Definition eac_modifier (w i : Z) : Z := znth (nth (Z.to_nat (field w 51 48)) eac_modifiers []) i.

(** 8-bit alpha of ETC2 RGBA8 *)
Definition eac_alpha (b : list Z) (o t : Z) : Z :=
  let w := etc_word b o in
  clamp8 (eac_base w + eac_modifier w (eac_index w t) * eac_multiplier w).
Definition etc2_rgba8_texel (b : list Z) (t : Z) : Z :=
  etc2_texel b 8 t - 255 * 16777216 + eac_alpha b 0 t * 16777216.

(** 11-bit values, and their reduction to the upper 8 bits. *)
Definition clamp_to (lo hi v : Z) : Z := Z.max lo (Z.min hi v).
Definition eac_scale (w : Z) : Z := if eac_multiplier w =? 0 then 1 else 8 * eac_multiplier w.
Definition eac_value11 (w i : Z) : Z :=
  clamp_to 0 2047 (eac_base w * 8 + 4 + eac_modifier w i * eac_scale w).
Definition signed8 (v : Z) : Z := if 128 <=? v then v - 256 else v.
Definition eac_value11s (w i : Z) : Z :=
  clamp_to (-1023) 1023 (signed8 (eac_base w) * 8 + eac_modifier w i * eac_scale w).
(** Unsigned: v/8; signed: shifted to the unsigned range first. *)
Definition eac_red (b : list Z) (o t : Z) : Z :=
  let w := etc_word b o in eac_value11 w (eac_index w t) / 8.
Definition eac_red_s (b : list Z) (o t : Z) : Z :=
  let w := etc_word b o in (eac_value11s w (eac_index w t) + 1023) / 8.
(** What the code computes instead: indices taken from the byte-reversed block,
    values not clamped to -1023..1023 but, after the shift, to 0..2047. *)
Definition eac_swapped (b : list Z) (o : Z) : Z :=
  znth b o + znth b (o + 1) * 2 ^ 8 + znth b (o + 2) * 2 ^ 16 + znth b (o + 3) * 2 ^ 24 +
  znth b (o + 4) * 2 ^ 32 + znth b (o + 5) * 2 ^ 40 + znth b (o + 6) * 2 ^ 48 + znth b (o + 7) * 2 ^ 56.
Definition eac_code_red (b : list Z) (o t : Z) : Z :=
  eac_value11 (etc_word b o) (eac_index (eac_swapped b o) t) / 8.
Definition eac_code_red_s (b : list Z) (o t : Z) : Z :=
  let w := etc_word b o in
  clamp_to 0 2047 (signed8 (eac_base w) * 8 + eac_modifier w (eac_index (eac_swapped b o) t) * eac_scale w + 1023) / 8.
(** Texels of the one- and two-channel images as the code produces them. *)
Definition eacr_code_texel (b : list Z) (t : Z) : Z := rgba (eac_code_red b 0 t) 0 0 255.
Definition eacr_s_code_texel (b : list Z) (t : Z) : Z := rgba (eac_code_red_s b 0 t) 0 0 255.
Definition eacrg_code_texel (b : list Z) (t : Z) : Z := rgba (eac_code_red b 0 t) (eac_code_red b 8 t) 0 255.
Definition eacrg_s_code_texel (b : list Z) (t : Z) : Z := rgba (eac_code_red_s b 0 t) (eac_code_red_s b 8 t) 0 255.
