(** * Specification: which pictures the ETC formats can store.
    What a block of 4x4 texels may look like is said without reference to bits:
    a [pattern] is a condition on the colours of its texels, numbered row by row. *)
From Verif Require Import Base BaseLemmas ModelColor SpecImage SpecBc SpecEtc SpecCut SpecEncode.

(** Each block of the picture, as far as it lies inside, is part of a pattern. *)
Definition composed (pattern : (Z -> Z) -> Prop) (w h : Z) (pic : Z -> Z -> Z) : Prop :=
  forall bx by_, 0 <= bx -> 0 <= by_ -> 4 * bx < w -> 4 * by_ < h ->
    exists f, pattern f /\ forall x y, 4 * bx <= x < 4 * bx + 4 -> 4 * by_ <= y < 4 * by_ + 4 -> x < w -> y < h ->
      pic x y = f ((y - 4 * by_) * 4 + (x - 4 * bx)).

(** Exactly these pictures are decoded from something. *)
Definition composes_exactly (raw : Z) (pattern : (Z -> Z) -> Prop) (dec : list Z -> Z -> Z -> list Z -> res (status * list Z)) : Prop :=
  forall w h pic, 0 <= w < 2 ^ 64 -> 0 <= h < 2 ^ 64 -> blocks w 4 * blocks h 4 * raw < 2 ^ 63 -> 4 * (w * h) < 2 ^ 63 ->
    (composed pattern w h pic ->
       exists data, bytes data /\ zlen data = blocks w 4 * blocks h 4 * raw /\
         forall image, w * h <= zlen image -> 4 * zlen image < 2 ^ 63 ->
           exists image', dec data w h image = Ok (Done, image') /\ shows image' w h pic) /\
    (forall data image image', bytes data -> 4 * zlen image < 2 ^ 63 ->
       dec data w h image = Ok (Done, image') -> shows image' w h pic -> composed pattern w h pic).

(** ** What blocks are made of *)
(** Colours of three channels below [n], and a choice below [n] for each texel. *)
Definition colour_below (n : Z) (c : Z -> Z) : Prop := forall ch, 0 <= ch < 3 -> 0 <= c ch < n.
Definition choice_below (n : Z) (i : Z -> Z) : Prop := forall t, 0 <= t < 16 -> 0 <= i t < n.

(** Two halves, side by side or one above the other.  Each has a colour [c] and a
    row [k] of the table of modifiers. *)
Definition second_half (above : bool) (t : Z) : bool := if above then 8 <=? t else 2 <=? t mod 4.
Definition halves (modifier : Z -> Z -> Z) (above : bool) (c1 c2 : Z -> Z) (k1 k2 : Z) (i : Z -> Z) (t : Z) : Z :=
  if second_half above t then add_rgb c2 (modifier k2 (i t)) 255 else add_rgb c1 (modifier k1 (i t)) 255.

(** Individual: two colours of four bits per channel. *)
Definition individual (f : Z -> Z) : Prop :=
  exists above c1 c2 k1 k2 i, colour_below 16 c1 /\ colour_below 16 c2 /\ 0 <= k1 < 8 /\ 0 <= k2 < 8 /\ choice_below 4 i /\
    forall t, 0 <= t < 16 -> f t = halves etc_modifier above (fun ch => rep4 (c1 ch)) (fun ch => rep4 (c2 ch)) k1 k2 i t.
(** Differential: two colours of five bits per channel that are close to each other. *)
Definition close (c1 c2 : Z -> Z) : Prop := forall ch, 0 <= ch < 3 -> -4 <= c2 ch - c1 ch <= 3.
(** ... on a circle of 32 values. *)
Definition close_round (c1 c2 : Z -> Z) : Prop := forall ch, 0 <= ch < 3 -> (c2 ch - c1 ch + 4) mod 32 < 8.
Definition differential (near : (Z -> Z) -> (Z -> Z) -> Prop) (f : Z -> Z) : Prop :=
  exists above c1 c2 k1 k2 i, colour_below 32 c1 /\ colour_below 32 c2 /\ near c1 c2 /\ 0 <= k1 < 8 /\ 0 <= k2 < 8 /\ choice_below 4 i /\
    forall t, 0 <= t < 16 -> f t = halves etc_modifier above (fun ch => rep5 (c1 ch)) (fun ch => rep5 (c2 ch)) k1 k2 i t.
(** T: a colour, and another one in three shades. *)
Definition t_colours (c1 c2 : Z -> Z) (d : Z) (i : Z) : Z :=
  if i =? 0 then add_rgb c1 0 255
  else add_rgb c2 (if i =? 1 then znth etc_distance d else if i =? 2 then 0 else - znth etc_distance d) 255.
Definition t_pattern (f : Z -> Z) : Prop :=
  exists c1 c2 d i, colour_below 16 c1 /\ colour_below 16 c2 /\ 0 <= d < 8 /\ choice_below 4 i /\
    forall t, 0 <= t < 16 -> f t = t_colours (fun ch => rep4 (c1 ch)) (fun ch => rep4 (c2 ch)) d (i t).
(** H: two colours in two shades.  The order of the colours is part of the distance. *)
Definition h_colours (c1 c2 : Z -> Z) (d : Z) (i : Z) : Z :=
  add_rgb (if i <? 2 then c1 else c2) (if (i =? 0) || (i =? 2) then znth etc_distance d else - znth etc_distance d) 255.
Definition h_order (c1 c2 : Z -> Z) (d : Z) : Prop := d mod 2 = 1 <-> h_value c2 <= h_value c1.
Definition h_pattern (f : Z -> Z) : Prop :=
  exists c1 c2 d i, colour_below 16 c1 /\ colour_below 16 c2 /\ 0 <= d < 8 /\ h_order c1 c2 d /\ choice_below 4 i /\
    forall t, 0 <= t < 16 -> f t = h_colours (fun ch => rep4 (c1 ch)) (fun ch => rep4 (c2 ch)) d (i t).
(** Planar: three colours of 6, 7 and 6 bits, and what lies between them. *)
Definition colour676 (c : Z -> Z) : Prop := 0 <= c 0 < 64 /\ 0 <= c 1 < 128 /\ 0 <= c 2 < 64.
Definition wide676 (c : Z -> Z) (ch : Z) : Z := if ch =? 1 then rep7 (c ch) else rep6 (c ch).
Definition plane (o h v : Z -> Z) (t : Z) : Z :=
  let at_ ch := clamp8 (((t mod 4) * (h ch - o ch) + (t / 4) * (v ch - o ch) + 4 * o ch + 2) / 4) in
  rgba (at_ 0) (at_ 1) (at_ 2) 255.
Definition planar_pattern (f : Z -> Z) : Prop :=
  exists o h v, colour676 o /\ colour676 h /\ colour676 v /\
    forall t, 0 <= t < 16 -> f t = plane (wide676 o) (wide676 h) (wide676 v) t.

(** ** The formats *)
Definition etc1_pattern (f : Z -> Z) : Prop := individual f \/ differential close_round f.
Definition etc2_pattern (f : Z -> Z) : Prop := individual f \/ differential close f \/ t_pattern f \/ h_pattern f \/ planar_pattern f.

(** Punch-through alpha: [f] opaque; or with choice 2 transparent (colour kept,
    see C22), where halves have the modifiers of [etc2a_modifier false]. *)
Definition cleared (i : Z -> Z) (f : Z -> Z) (t : Z) : Z := if i t =? 2 then f t - 255 * 16777216 else f t.
Definition differential_clear (f : Z -> Z) : Prop :=
  exists above c1 c2 k1 k2 i, colour_below 32 c1 /\ colour_below 32 c2 /\ close c1 c2 /\ 0 <= k1 < 8 /\ 0 <= k2 < 8 /\ choice_below 4 i /\
    forall t, 0 <= t < 16 -> f t = cleared i (halves (etc2a_modifier false) above (fun ch => rep5 (c1 ch)) (fun ch => rep5 (c2 ch)) k1 k2 i) t.
Definition t_clear (f : Z -> Z) : Prop :=
  exists c1 c2 d i, colour_below 16 c1 /\ colour_below 16 c2 /\ 0 <= d < 8 /\ choice_below 4 i /\
    forall t, 0 <= t < 16 -> f t = cleared i (fun t => t_colours (fun ch => rep4 (c1 ch)) (fun ch => rep4 (c2 ch)) d (i t)) t.
Definition h_clear (f : Z -> Z) : Prop :=
  exists c1 c2 d i, colour_below 16 c1 /\ colour_below 16 c2 /\ 0 <= d < 8 /\ h_order c1 c2 d /\ choice_below 4 i /\
    forall t, 0 <= t < 16 -> f t = cleared i (fun t => h_colours (fun ch => rep4 (c1 ch)) (fun ch => rep4 (c2 ch)) d (i t)) t.
Definition etc2a_pattern (f : Z -> Z) : Prop :=
  (differential close f \/ t_pattern f \/ h_pattern f \/ planar_pattern f) \/ (differential_clear f \/ t_clear f \/ h_clear f).

(** RGBA8: a colour pattern with any alpha pattern: a base, a multiplier, a table
    and a choice of eight modifiers per texel. *)
Definition alpha_pattern (a : Z -> Z) : Prop :=
  exists base mult table i, 0 <= base < 256 /\ 0 <= mult < 16 /\ 0 <= table < 16 /\ choice_below 8 i /\
    forall t, 0 <= t < 16 -> a t = clamp8 (base + znth (nth (Z.to_nat table) eac_modifiers []) (i t) * mult).
Definition rgba8_pattern (f : Z -> Z) : Prop :=
  exists g a, etc2_pattern g /\ alpha_pattern a /\ forall t, 0 <= t < 16 -> f t = g t - 255 * 16777216 + a t * 16777216.
