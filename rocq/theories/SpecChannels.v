(** * Specification: the channels a format has. *)
From Verif Require Import Base BaseLemmas ModelColor SpecImage SpecBc SpecCut.

(** Each pixel of a decoded picture, whatever the data, is a 32-bit word with [P]. *)
Definition every_pixel (raw : Z) (dec : list Z -> Z -> Z -> list Z -> res (status * list Z)) (P : Z -> Prop) : Prop :=
  forall data w h image image', sized 4 4 raw data w h image -> dec data w h image = Ok (Done, image') ->
    forall x y, 0 <= x < w -> 0 <= y < h -> 0 <= znth image' (y * w + x) < 2 ^ 32 /\ P (znth image' (y * w + x)).

Definition opaque (v : Z) : Prop := alpha v = 255.
(** Opaque or entirely clear. *)
Definition punched (v : Z) : Prop := alpha v = 0 \/ alpha v = 255.
Definition red_only (v : Z) : Prop := opaque v /\ green v = 0 /\ blue v = 0.
Definition red_green_only (v : Z) : Prop := opaque v /\ blue v = 0.
(** One of sixteen levels. *)
Definition alpha_16 (v : Z) : Prop := alpha v mod 17 = 0.
