(** * Specification: crunch files of which only the codes are as they should be. *)
From Verif Require Import Base BaseLemmas ModelCrn SpecCrn SpecCrnHeader SpecCrnLevel SpecCrnFile SpecCrnSound SpecCrnSafe.

(** Bytes [ofs] .. [ofs + size - 1] of the file start with [items].  A whole byte
    follows, in these bytes or behind them. *)
Definition starts_with (data : list Z) (ofs size : Z) (items : list item) : Prop :=
  0 <= ofs /\ 1 <= size /\ ofs + size <= zlen data /\ Forall item_ok items /\
  exists rest, bit_stream (section data ofs size) = flat_map item_bits items ++ rest /\
    (8 <= zlen rest \/ ofs + size < zlen data).
Definition palette_starts (data : list Z) (p : palette) (items : list item) : Prop := starts_with data (p_ofs p) (p_size p) items.

(** The codes of the palettes: colour end points (components of five bits and of
    six bits), colour selectors, alpha end points, alpha selectors. *)
Record palette_codes := mkPaletteCodes {
  q_five : list Z; q_six : list Z; q_color : list Z; q_byte : list Z; q_alpha : list Z }.

(** The header and all codes are complete; nothing is said about what follows
    the codes. *)
Definition only_codes (sizes : kind -> list Z) : contents := let z _ _ := 0 in mkContents sizes z z z z.
Definition codes_written (data : list Z) (sizes : kind -> list Z) (q : palette_codes) : Prop :=
  let h := header_at data in
  bytes data /\ 74 <= zlen data /\ header_room data <= zlen data /\ well_formed data = true /\
  (has_color data \/ has_alpha data) /\ tables_written data (only_codes sizes) /\
  (has_color data ->
    (exists i5 i6, coding (q_five q) i5 /\ coding (q_six q) i6 /\ palette_starts data (h_color_endpoints h) (i5 ++ i6)) /\
    (exists i, coding (q_color q) i /\ palette_starts data (h_color_selectors h) i)) /\
  (has_alpha data ->
    (exists i, coding (q_byte q) i /\ palette_starts data (h_alpha_endpoints h) i) /\
    (exists i, coding (q_alpha q) i /\ palette_starts data (h_alpha_selectors h) i)).

(** Every code has a word; the symbols for selectors are moves of two values: by -3
    to 3 for colours, by -7 to 7 for alpha. *)
Definition has_word (sizes : list Z) : Prop := exists s, coded sizes s.
Definition symbols_below (n : Z) (sizes : list Z) : Prop := forall s, coded sizes s -> s < n.
Definition sturdy (data : list Z) (q : palette_codes) : Prop :=
  (has_color data -> has_word (q_five q) /\ has_word (q_six q) /\ has_word (q_color q) /\ symbols_below 49 (q_color q)) /\
  (has_alpha data -> has_word (q_byte q) /\ has_word (q_alpha q) /\ symbols_below 225 (q_alpha q)).

(** Some words of these codes stand for nothing. *)
Definition palette_gap (data : list Z) (q : palette_codes) : Prop :=
  has_color data /\ (incomplete (q_five q) \/ incomplete (q_six q) \/ incomplete (q_color q)) \/
  has_alpha data /\ (incomplete (q_byte q) \/ incomplete (q_alpha q)).

(** The codes of the levels suit palettes of the sizes the header announces. *)
Definition suited (data : list Z) (sizes : kind -> list Z) : Prop :=
  forall ce cs ae al, palette_sizes data ce cs ae al -> robust (planes_of (number data 18 1) ce cs ae al) sizes.
