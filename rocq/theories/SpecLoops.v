(** * Unbounded loops, and the states a codec can get into *)
From Verif Require Import Base ModelCrn.

(** [runs body s o]: the loop that repeats [body] from state [s] comes to an
    end, with outcome [o].  There is no bound; a loop that goes on for ever is
    related to no outcome. *)
Inductive runs {S R} (body : S -> res (S + R)) : S -> res R -> Prop :=
| runs_done s r : body s = Ok (inr r) -> runs body s (Ok r)
| runs_err s e : body s = Err e -> runs body s (Err e)
| runs_panic s : body s = Panic -> runs body s Panic
| runs_more s s' o : body s = Ok (inl s') -> runs body s' o -> runs body s o.

(** A Huffman model of the decoder: as created, or after its tables were
    prepared from any code sizes whatever. *)
Definition usable (m : build) (md : model) : Prop :=
  md = default_model \/ exists sizes, prepare_decoder_tables m sizes = Ok md.

(** The states of a codec after any calls whatever, on any bytes. *)
Inductive reached (m : build) : codec -> Prop :=
| reached_start buf size c : start_decoding buf size = Ok c -> reached m c
| reached_bits n c v c' : reached m c -> 0 <= n -> decode_bits m n c = Ok (v, c') -> reached m c'
| reached_symbol md c s c' : reached m c -> usable m md -> decode m md c = Ok (s, c') -> reached m c'.
