(** * Specification: which pictures a format can store.
    In BC1 to BC5 and ATC each block chooses end points [a]; each of its texels
    then has one of the colours [colour a]. *)
From Verif Require Import Base BaseLemmas ModelColor SpecImage SpecBc SpecCut.

(** The w x h picture in a buffer. *)
Definition shows (image : list Z) (w h : Z) (pic : Z -> Z -> Z) : Prop :=
  forall x y, 0 <= x < w -> 0 <= y < h -> znth image (y * w + x) = pic x y.

(** For each 4x4 block of the picture there are end points that give all its colours. *)
Definition storable {A} (ends : A -> Prop) (colour : A -> Z -> Prop) (w h : Z) (pic : Z -> Z -> Z) : Prop :=
  forall bx by_, 0 <= bx -> 0 <= by_ -> 4 * bx < w -> 4 * by_ < h ->
    exists a, ends a /\ forall x y, 4 * bx <= x < 4 * bx + 4 -> 4 * by_ <= y < 4 * by_ + 4 -> x < w -> y < h -> colour a (pic x y).

(** Exactly these pictures are decoded from something. *)
Definition stores_exactly {A} (raw : Z) (ends : A -> Prop) (colour : A -> Z -> Prop) (dec : list Z -> Z -> Z -> list Z -> res (status * list Z)) : Prop :=
  forall w h pic, 0 <= w < 2 ^ 64 -> 0 <= h < 2 ^ 64 -> blocks w 4 * blocks h 4 * raw < 2 ^ 63 -> 4 * (w * h) < 2 ^ 63 ->
    (storable ends colour w h pic ->
       exists data, bytes data /\ zlen data = blocks w 4 * blocks h 4 * raw /\
         forall image, w * h <= zlen image -> 4 * zlen image < 2 ^ 63 ->
           exists image', dec data w h image = Ok (Done, image') /\ shows image' w h pic) /\
    (forall data image image', bytes data -> 4 * zlen image < 2 ^ 63 ->
       dec data w h image = Ok (Done, image') -> shows image' w h pic -> storable ends colour w h pic).

Definition is_u16 (v : Z) : Prop := 0 <= v < 65536.
Definition u16_pair (c : Z * Z) : Prop := is_u16 (fst c) /\ is_u16 (snd c).
Definition byte_pair (a : Z * Z) : Prop := is_byte (fst a) /\ is_byte (snd a).

(** Colour [s] of a BC1 block with end points [c], with the alpha [a]. *)
Definition bc1_rgb (c : Z * Z) (s a : Z) : Z :=
  let f part := bc1_mix (snd c <? fst c) (part (fst c)) (part (snd c)) s in
  rgba (f red565) (f green565) (f blue565) a.
Definition bc1_colour (c : Z * Z) (v : Z) : Prop := exists s, 0 <= s < 4 /\ v = bc1_rgb c s 255.
(** With punch-through alpha: if the first end point is not the greater one, the
    fourth colour is transparent. *)
Definition bc1a_colour (c : Z * Z) (v : Z) : Prop :=
  exists s, 0 <= s < 4 /\ v = bc1_rgb c s (if fst c <=? snd c then if s =? 3 then 0 else 255 else 255).
(** BC2: any alpha of four bits. *)
Definition bc2_colour (c : Z * Z) (v : Z) : Prop := exists s a, 0 <= s < 4 /\ 0 <= a < 16 /\ v = bc1_rgb c s (17 * a).

(** The eight values of an interpolated channel. *)
Definition ramp_value (a : Z * Z) (v : Z) : Prop := exists s, 0 <= s < 8 /\ v = ramp (fst a) (snd a) s.
Definition bc3_ends (e : (Z * Z) * (Z * Z)) : Prop := u16_pair (fst e) /\ byte_pair (snd e).
Definition bc3_colour (e : (Z * Z) * (Z * Z)) (v : Z) : Prop := exists s a, 0 <= s < 4 /\ ramp_value (snd e) a /\ v = bc1_rgb (fst e) s a.
Definition bc4_colour (a : Z * Z) (v : Z) : Prop := exists r, ramp_value a r /\ v = rgba r 0 0 255.
Definition bc5_ends (e : (Z * Z) * (Z * Z)) : Prop := byte_pair (fst e) /\ byte_pair (snd e).
Definition bc5_colour (e : (Z * Z) * (Z * Z)) (v : Z) : Prop := exists r g, ramp_value (fst e) r /\ ramp_value (snd e) g /\ v = rgba r g 0 255.

(** ATC: [dark] as in [SpecBc]. *)
Definition atc_colour_at (dark : Z -> Z -> Z) (c : Z * Z) (s a : Z) : Z :=
  let f := atc_mix dark (32768 <=? fst c) in
  rgba (f (atc_r0 (fst c)) (red565 (snd c)) s) (f (atc_g0 (fst c)) (green565 (snd c)) s) (f (atc_b0 (fst c)) (blue565 (snd c)) s) a.
Definition atc_rgb_colour (dark : Z -> Z -> Z) (c : Z * Z) (v : Z) : Prop := exists s, 0 <= s < 4 /\ v = atc_colour_at dark c s 255.
Definition atc_rgba_colour (dark : Z -> Z -> Z) (e : (Z * Z) * (Z * Z)) (v : Z) : Prop :=
  exists s a, 0 <= s < 4 /\ ramp_value (snd e) a /\ v = atc_colour_at dark (fst e) s a.

(** Pictures of solid blocks: each block has one colour, any 32-bit word. *)
Definition solid_blocks (bw bh w h : Z) (pic : Z -> Z -> Z) : Prop :=
  forall bx by_, 0 <= bx -> 0 <= by_ -> exists v, 0 <= v < 2 ^ 32 /\
    forall x y, bw * bx <= x < bw * bx + bw -> bh * by_ <= y < bh * by_ + bh -> x < w -> y < h -> pic x y = v.
