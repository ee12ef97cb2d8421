(** * C36: the bit reader *)
From Verif Require Import Base BaseLemmas SpecBits ModelBits ProofBits.

(** [BitReader::peek]/[read] (fields of up to 15 bits) and [getbits] (up to 30
    bits, spanning at most four bytes) return the little-endian bit field. *)
Theorem C36_peek m data pos off n : bytes data -> 0 <= pos -> 0 <= off -> 0 <= n <= 15 ->
  pos + off + n <= 8 * zlen data -> pos + off + n < 2 ^ 64 ->
  peek m data pos off n = Ok (bits data (pos + off) n).
Proof. exact (peek_ok m data pos off n). Qed.
Theorem C36_read m data pos n : bytes data -> 0 <= pos -> 0 <= n <= 15 ->
  pos + n <= 8 * zlen data -> pos + n < 2 ^ 64 ->
  read m data pos n = Ok (bits data pos n, pos + n).
Proof. exact (read_ok m data pos n). Qed.
Theorem C36_getbits m data p n : bytes data -> 0 <= p -> 0 <= n <= 30 -> p mod 8 + n <= 32 ->
  p + n <= 8 * zlen data -> p + n < 2 ^ 64 ->
  getbits m data p n = Ok (bits data p n).
Proof. exact (getbits_ok m data p n). Qed.
(** The 64-bit reader used on 16-byte blocks; bits beyond the block read as 0. *)
Theorem C36_getbits64 m data bit len : bytes data -> zlen data = 16 -> 0 <= bit < 128 -> 0 <= len <= 64 ->
  getbits64 m data bit len = Ok (bits data bit len).
Proof. exact (getbits64_ok m data bit len). Qed.
(** At a position before the start of the block the missing bits read as 0. *)
Theorem C36_getbits64_before_start m data bit len : bytes data -> 8 <= zlen data -> -64 < bit <= 0 -> 1 <= len <= 64 ->
  getbits64 m data bit len = Ok ((bits data 0 64 * 2 ^ (- bit)) mod 2 ^ len).
Proof. exact (getbits64_neg m data bit len). Qed.
(** The fields are those bits of the string: bit [i] of the field is bit
    [(p + i) mod 8] of byte [(p + i) / 8], and nothing else. *)
Theorem C36_field_bits data p n i : bytes data -> 0 <= p -> 0 <= n -> 0 <= i ->
  Z.testbit (bits data p n) i =
  (i <? n) && Z.testbit (znth data ((p + i) / 8)) ((p + i) mod 8).
Proof. exact (bits_testbit_full data p n i). Qed.
(** Two reads in sequence concatenate. *)
Theorem C36_reads_concatenate m data pos a b : bytes data -> 0 <= pos -> 0 <= a <= 15 -> 0 <= b <= 15 ->
  pos + a + b <= 8 * zlen data -> pos + a + b < 2 ^ 64 ->
  exists x y, read m data pos a = Ok (x, pos + a) /\ read m data (pos + a) b = Ok (y, pos + a + b) /\
    x + 2 ^ a * y = bits data pos (a + b).
Proof. exact (read_read m data pos a b). Qed.
(** Reads past the end panic. *)
Theorem C36_past_end_panics m data pos n : 0 <= pos -> 0 <= n -> pos + n < 2 ^ 64 -> 8 * zlen data < pos + n ->
  read m data pos n = Panic /\ peek m data pos 0 n = Panic /\ getbits m data pos n = Panic.
Proof. exact (past_end_panics m data pos n). Qed.
(** A full 16-bit field does not fit the mask computation [(1u16 << n) - 1]:
    with overflow checks the reader panics, without it returns 0. *)
Theorem C36_sixteen_bits data pos : bytes data -> 0 <= pos -> pos + 16 <= 8 * zlen data -> pos + 16 < 2 ^ 64 ->
  peek Checked data pos 0 16 = Panic /\ peek Wrapping data pos 0 16 = Ok 0.
Proof. exact (peek16 data pos). Qed.

Example C36_ex_read : read Checked [0xA5; 0x3C; 0x7E] 6 11 = Ok (0x0F2, 17) /\ bytes [0xA5; 0x3C; 0x7E].
Proof. split; [vm_compute; reflexivity|]. repeat constructor; unfold is_byte; lia. Qed.
Example C36_ex_getbits : getbits Wrapping [0xA5; 0x3C; 0x7E; 0xFF; 0x81] 10 22 = Ok 0x3FDF8F.
Proof. vm_compute; reflexivity. Qed.
Example C36_ex_getbits64 : getbits64 Checked [1; 2; 3; 4; 5; 6; 7; 8; 9; 10; 11; 12; 13; 14; 15; 16] 60 12 = Ok 0x090.
Proof. vm_compute; reflexivity. Qed.
Example C36_ex_before_start : getbits64 Checked [0xA5; 2; 3; 4; 5; 6; 7; 8; 9; 10; 11; 12; 13; 14; 15; 16] (-4) 12 = Ok 0xA50.
Proof. vm_compute; reflexivity. Qed.
Example C36_ex_past_end : read Checked [0xA5; 0x3C] 6 11 = Panic.
Proof. vm_compute; reflexivity. Qed.
Print Assumptions C36_peek.
Print Assumptions C36_read.
Print Assumptions C36_getbits.
Print Assumptions C36_getbits64.
Print Assumptions C36_getbits64_before_start.
Print Assumptions C36_field_bits.
Print Assumptions C36_reads_concatenate.
Print Assumptions C36_past_end_panics.
Print Assumptions C36_sixteen_bits.
