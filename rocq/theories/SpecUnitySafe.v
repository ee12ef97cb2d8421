(** * Specification: Unity crunch files whose levels can be corrupted without harm. *)
From Verif Require Import Base BaseLemmas SpecCrn SpecCrnHeader SpecCrnLevel SpecCrnFile SpecUnityFile SpecCrnSafe.

(** Formats whose blocks have a colour part, and an alpha part. *)
Definition u_draws_color (f : Z) : bool := (f =? 0) || (2 <=? f) && (f <=? 6) || is_etc f.
Definition u_draws_alpha (f : Z) : bool := (2 <=? f) && (f <=? 9) || (f =? 12) || (f =? 14).
Definition u_kinds (f : Z) : list kind :=
  Chunks :: (if u_draws_color f then [ColorEnd; ColorSel] else []) ++ (if u_draws_alpha f then [AlphaEnd; AlphaSel] else []).

(** A code for numbers of [n] entries: it has a code word, and every symbol is
    less than [n]. *)
Definition picks_from (n : Z) (sizes : list Z) : Prop :=
  (exists s, coded sizes s) /\ forall s, coded sizes s -> s < n.

(** Every code used by a level has a code word and fits the palette whose size
    the header announces: end points are found by moving, selectors by number. *)
Definition u_robust (data : list Z) (sizes : kind -> list Z) : Prop :=
  let f := number data 18 1 in
  (exists s, coded (sizes Chunks) s) /\
  (u_draws_color f = true -> moves_in (number data 39 2) (sizes ColorEnd) /\ picks_from (number data 47 2) (sizes ColorSel)) /\
  (u_draws_alpha f = true -> moves_in (number data 55 2) (sizes AlphaEnd) /\ picks_from (number data 63 2) (sizes AlphaSel)).

(** What is reported when a word standing for nothing is read. *)
Definition u_lost_in (f : Z) : string :=
  if (f =? 0) || (f =? 13) then "Failed to decode DXT1 Texture."%string
  else if f =? 9 then "Failed to decode DXT5A Texture."%string
  else if (f =? 7) || (f =? 8) then "Failed to decode DXN Texture."%string
  else if (f =? 10) || (f =? 11) then "Failed to decode ETC1 Texture."%string
  else if f =? 12 then "Failed to decode ETC2 Texture."%string
  else "Failed to decode DXT5 Texture."%string.
