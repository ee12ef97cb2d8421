(** * Specification: the pictures that Unity crunch files can hold. *)
From Verif Require Import Base BaseLemmas SpecCrnHeader SpecCrnLevel SpecUnity SpecUnityFile.

(** A block of planes: for every plane an existing entry of the palette of end
    points and one of the palette of selectors. *)
Definition plain_block (planes : list plane) (b : list Z) : Prop :=
  exists e s : Z -> Z,
    (forall p, 0 <= p < zlen planes -> 0 <= e p < pl_ends (plane_at planes p) /\ 0 <= s p < pl_sels (plane_at planes p)) /\
    b = flat_map (fun p => pl_block (plane_at planes p) (e p) (s p)) (plane_nos planes).

(** The head of an ETC1 block, for colours whose modifier tables may have more
    than the three bits they should have: the surplus bits of the first one are
    lost, the ones of the second one are mixed with the first one. *)
Definition loose_head (a b flip : Z) : list Z :=
  let diff := close a b 0 && close a b 1 && close a b 2 in
  map (fun c =>
    if diff then color_byte a c * 8 + (color_byte b c - color_byte a c) mod 8
    else color_byte a c / 2 * 16 + color_byte b c / 2) [0; 1; 2] ++
  [Z.lor (color_byte a 3 mod 8 * 32) (color_byte b 3 * 4) + (if diff then 2 else 0) + flip].

(** A block with two halves: existing colours [a] and [c], an existing selector
    [s] in the version for the way of halving; with alpha also an end point [ea] and
    a selector [sa] in the same version. *)
Definition halves_block (with_alpha : bool) (ce cs ae al b : list Z) : Prop :=
  exists a c s flip ea sa,
    0 <= a < zlen ce /\ 0 <= c < zlen ce /\ (0 <= s /\ 2 * s + 1 < zlen cs) /\ 0 <= flip < 2 /\
    (with_alpha = true -> 0 <= ea < zlen ae /\ 0 <= sa /\ 6 * sa + 5 < zlen al) /\
    b = (if with_alpha
         then le 2 (znth ae ea) ++ le 2 (znth al (6 * sa + 3 * flip)) ++ le 2 (znth al (6 * sa + 3 * flip + 1)) ++ le 2 (znth al (6 * sa + 3 * flip + 2))
         else []) ++
        loose_head (znth ce a) (znth ce c) flip ++ le 4 (znth cs (2 * s + flip)).

Definition u_drawable (f : Z) (ce cs ae al b : list Z) : Prop :=
  if has_halves f then halves_block (f =? 12) ce cs ae al b else plain_block (u_planes_of f ce cs ae al) b.

(** The sizes of the palettes announced by the header of [d].  Selectors of
    formats with halves have two versions; the alpha selectors of the ETC2 formats
    are followed by an unused word. *)
Definition u_palette_sizes (d ce cs ae al : list Z) : Prop :=
  let f := number d 18 1 in
  zlen ce = number d 39 2 /\
  zlen cs = (if number d 39 2 =? 0 then 0 else (if has_halves f then 2 else 1) * number d 47 2) /\
  zlen ae = number d 55 2 /\
  zlen al = (if number d 55 2 =? 0 then 0
             else if f =? 12 then 6 * number d 63 2 + 1 else if f =? 14 then 3 * number d 63 2 + 1 else 3 * number d 63 2).
(** The colours of formats with halves have components of five bits. *)
Definition five_bits (v : Z) : Prop := 0 <= v < 2 ^ 32 /\ forall c, 0 <= c < 4 -> color_byte v c < 32.
