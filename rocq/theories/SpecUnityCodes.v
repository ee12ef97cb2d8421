(** * Specification: Unity crunch files of which only the codes are as they should be. *)
From Verif Require Import Base BaseLemmas ModelCrn SpecCrn SpecCrnHeader SpecCrnLevel SpecCrnFile SpecCrnSafe SpecCrnCodes SpecUnityFile.

(** As for crunch files, but the end points of ETC formats have a single code,
    which is the first one, [q_five]. *)
Definition u_codes_written (data : list Z) (sizes : kind -> list Z) (q : palette_codes) : Prop :=
  let h := header_at data in
  bytes data /\ 74 <= zlen data /\ header_room data <= zlen data /\ well_formed data = true /\
  (has_color data \/ has_alpha data) /\ tables_written data (only_codes sizes) /\
  (has_color data ->
    (if is_etc (h_format h) then exists i, coding (q_five q) i /\ palette_starts data (h_color_endpoints h) i
     else exists i5 i6, coding (q_five q) i5 /\ coding (q_six q) i6 /\ palette_starts data (h_color_endpoints h) (i5 ++ i6)) /\
    (exists i, coding (q_color q) i /\ palette_starts data (h_color_selectors h) i)) /\
  (has_alpha data ->
    (exists i, coding (q_byte q) i /\ palette_starts data (h_alpha_endpoints h) i) /\
    (exists i, coding (q_alpha q) i /\ palette_starts data (h_alpha_selectors h) i)).

(** Every code has a word.  Selectors are mixed by exclusive or, so that there is
    no bound for their symbols.  The symbols of the end points of ETC formats are
    added to a byte of at most 31 without regard to a carry. *)
Definition u_sturdy (m : build) (data : list Z) (q : palette_codes) : Prop :=
  let etc := is_etc (number data 18 1) in
  (has_color data -> has_word (q_five q) /\ has_word (q_color q) /\ (etc = false -> has_word (q_six q)) /\
    (etc = true -> m = Wrapping \/ symbols_below 225 (q_five q))) /\
  (has_alpha data -> has_word (q_byte q) /\ has_word (q_alpha q)).

(** Some words of these codes stand for nothing. *)
Definition u_palette_gap (data : list Z) (q : palette_codes) : Prop :=
  has_color data /\ (incomplete (q_five q) \/ is_etc (number data 18 1) = false /\ incomplete (q_six q) \/ incomplete (q_color q)) \/
  has_alpha data /\ (incomplete (q_byte q) \/ incomplete (q_alpha q)).
