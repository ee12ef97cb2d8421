(** * Specification of the crunch header. *)
From Verif Require Import Base BaseLemmas ModelCrn.

(** The number of [n] bytes at offset [ofs], most significant byte first. *)
Definition number (data : list Z) (ofs n : Z) : Z :=
  fold_right (fun k a => znth data (ofs + k) * 256 ^ (n - 1 - k) + a) 0 (zrange 0 n).

Definition palette_at (data : list Z) (ofs : Z) : palette :=
  mkPalette (number data ofs 3) (number data (ofs + 3) 3) (number data (ofs + 6) 2).

(** Number of mip levels, and the room the header takes. *)
Definition levels_of (data : list Z) : Z := znth data 16.
Definition header_room (data : list Z) : Z := 70 + 4 * levels_of data.

(** The header fields by offset. *)
Definition header_at (data : list Z) : header :=
  mkHeader (number data 0 2) (number data 2 2) (number data 4 2) (number data 6 4) (number data 10 2)
    (number data 12 2) (number data 14 2) (levels_of data) (number data 17 1) (number data 18 1)
    (number data 19 2) (number data 21 4) (number data 25 4) (number data 29 4)
    (palette_at data 33) (palette_at data 41) (palette_at data 49) (palette_at data 57)
    (number data 65 2) (number data 67 3)
    (map (fun i => number data (70 + 4 * i) 4) (zrange 0 (levels_of data))).

(** "Hx", a header of at least 74 bytes, and a file as long as it says. *)
Definition well_formed (data : list Z) : bool :=
  (znth data 0 =? 72) && (znth data 1 =? 120) &&
  (74 <=? number data 2 2) && (number data 6 4 <=? zlen data).

(** Bytes per block of the sixteen formats. *)
Definition block_bytes_of (f : Z) : Z := znth [8; 16; 16; 16; 16; 16; 16; 16; 16; 8; 8; 8; 16; 8; 16; 16] f.
Definition info_at (data : list Z) : texture_info :=
  mkInfo (number data 12 2) (number data 14 2) (levels_of data) (number data 17 1)
    (block_bytes_of (number data 18 1)) (number data 25 4) (number data 29 4) (number data 18 1).
