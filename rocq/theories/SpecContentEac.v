(** * Specification: exactly which pictures EAC R11 and RG11 decoding shows.
    The deviations of the code from the format (C24) are part of the description:
    it takes the choices of six texels from the bytes of the base, the table and
    the multiplier. *)
From Verif Require Import Base BaseLemmas ModelColor SpecImage SpecBc SpecEtc SpecCut SpecEncode SpecContent.

(** The value, 0 to 255, for choice [k] of eight. *)
Definition eac_shown (sgn : bool) (base mult table k : Z) : Z :=
  let step := znth (nth (Z.to_nat table) eac_modifiers []) k * (if mult =? 0 then 1 else 8 * mult) in
  clamp_to 0 2047 (if sgn then signed8 base * 8 + step + 1023 else base * 8 + 4 + step) / 8.
(** The choices of the right column, and of the two texels left of its lower half,
    are given by the other numbers, except for two bits of the last one. *)
Definition tied (base mult table : Z) (i : Z -> Z) : Prop :=
  (i 15 + 8 * i 11 + 64 * i 7 + 512 * i 3 + 4096 * i 14 + 32768 * i 10) mod 65536 = base + 256 * table + 4096 * mult.
Definition eac_pattern (sgn : bool) (a : Z -> Z) : Prop :=
  exists base mult table i, 0 <= base < 256 /\ 0 <= mult < 16 /\ 0 <= table < 16 /\ choice_below 8 i /\ tied base mult table i /\
    forall t, 0 <= t < 16 -> a t = eac_shown sgn base mult table (i t).
Definition r11_pattern (sgn : bool) (f : Z -> Z) : Prop := exists a, eac_pattern sgn a /\ forall t, 0 <= t < 16 -> f t = rgba (a t) 0 0 255.
Definition rg11_pattern (sgn : bool) (f : Z -> Z) : Prop := exists a g, eac_pattern sgn a /\ eac_pattern sgn g /\ forall t, 0 <= t < 16 -> f t = rgba (a t) (g t) 0 255.

(** Pictures of one colour. *)
Definition shows_solid (dec : list Z -> Z -> Z -> list Z -> res (status * list Z)) (w h c : Z) : Prop :=
  exists data image image', bytes data /\ 4 * zlen image < 2 ^ 63 /\ dec data w h image = Ok (Done, image') /\ shows image' w h (fun _ _ => c).
(** The reds for which there are such pictures. *)
Definition solid_reds : list Z :=
  [0; 1; 2; 4; 5; 6; 8; 9; 10; 12; 13; 14; 16; 17; 18; 20; 21; 22; 28; 32; 33; 34; 36; 37;
   38; 40; 41; 42; 44; 45; 46; 48; 49; 50; 52; 53; 54; 64; 65; 66; 68; 69; 70; 72; 73; 74;
   76; 77; 78; 80; 81; 82; 84; 85; 86; 96; 97; 98; 100; 101; 102; 104; 105; 106; 108; 109;
   110; 112; 113; 114; 116; 117; 118; 128; 129; 130; 132; 133; 134; 136; 137; 138; 140;
   141; 142; 144; 145; 146; 148; 149; 150; 160; 161; 162; 164; 165; 166; 168; 169; 170;
   172; 173; 174; 176; 177; 178; 180; 181; 182; 194; 255].
Definition solid_reds_signed : list Z :=
  [0; 1; 65; 127; 128; 135; 136; 155; 167; 191; 192; 199; 200; 246; 255].
