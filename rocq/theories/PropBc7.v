(** * C12, C13: BC7 *)
From Verif Require Import Base BaseLemmas ModelColor SpecImage SpecBc SpecBits SpecBc7 ModelBc7 ProofBc7Image.

(** ** C12: exactness *)
Theorem C12_bc7_block_exact m : block_exact 16 bc7_texel (decode_bc7_block m).
Proof. exact (proj1 (bc7_contract m)). Qed.
Theorem C12_bc7_image_exact m : image_decoder 4 4 16 bc7_texel (decode_bc7 m).
Proof. exact (bc7_image m). Qed.
(** A mode 6 block and a mode 1 block with two subsets. *)
Definition bc7_m6 : list Z := [0x40; 0xC0; 0x1F; 0; 0x7F; 0x80; 0xFF; 0xFF; 0x10; 0x32; 0x54; 0x76; 0x98; 0xBA; 0xDC; 0xFE].
Definition bc7_m1 : list Z := [0xA2; 0x0D; 0x1F; 0x3C; 0x7F; 0x80; 0x5A; 0xFF; 0x10; 0x32; 0x54; 0x76; 0x98; 0xBA; 0xDC; 0xFE].
Example C12_ex_blocks : bytes bc7_m6 /\ bytes bc7_m1 /\ bc7_mode bc7_m6 = 6 /\ bc7_mode bc7_m1 = 1.
Proof. repeat split; try reflexivity; repeat constructor; unfold is_byte; lia. Qed.
Example C12_ex_mode6 : decode_bc7_block Checked bc7_m6 (repeat 0 16) =
  Ok [4278255903; 4279308073; 4280623158; 4281609792; 4282661962; 4283714132; 4285029472; 4286081642;
      4270290805; 4271342975; 4272658315; 4273710485; 4274762655; 4275749289; 4277064374; 4278116544].
Proof. vm_compute; reflexivity. Qed.
Example C12_ex_mode6_spec : map (bc7_texel bc7_m6) (zrange 0 4) = [4278255903; 4279308073; 4280623158; 4281609792].
Proof. vm_compute; reflexivity. Qed.
Print Assumptions C12_bc7_block_exact.
Print Assumptions C12_bc7_image_exact.

(** ** C13: totality, reserved mode, opaque modes *)
Theorem C13_bc7_total m data outbuf : bytes data -> 16 <= zlen data -> 16 <= zlen outbuf ->
  exists out, decode_bc7_block m data outbuf = Ok out.
Proof. exact (bc7_total m data outbuf). Qed.
Theorem C13_bc7_reserved_zero m data outbuf : bytes data -> 16 <= zlen data -> 16 <= zlen outbuf -> znth data 0 = 0 ->
  decode_bc7_block m data outbuf = Ok (repeat 0 16 ++ skipn 16 outbuf).
Proof. exact (bc7_reserved m data outbuf). Qed.
(** Mode k (0..7) is chosen by the lowest one bit of the first byte. *)
Theorem C13_bc7_mode_of_first_byte data : bytes data -> 1 <= zlen data ->
  (bc7_mode data = 8 <-> znth data 0 = 0) /\
  (forall k, 0 <= k < 8 -> (bc7_mode data = k <-> znth data 0 mod 2 ^ (k + 1) = 2 ^ k)).
Proof. exact (bc7_mode_first_byte data). Qed.
Theorem C13_bc7_opaque_modes m data outbuf : bytes data -> 16 <= zlen data -> 16 <= zlen outbuf ->
  znth data 0 mod 16 <> 0 ->
  exists out, decode_bc7_block m data outbuf = Ok out /\ forall t, 0 <= t < 16 -> alpha (znth out t) = 255.
Proof. exact (bc7_opaque_block m data outbuf). Qed.
Example C13_ex_reserved : decode_bc7_block Checked (0 :: repeat 255 15) (repeat 7 17) = Ok (repeat 0 16 ++ [7]).
Proof. vm_compute; reflexivity. Qed.
Example C13_ex_opaque : znth bc7_m1 0 mod 16 <> 0 /\
  exists out, decode_bc7_block Wrapping bc7_m1 (repeat 0 16) = Ok out /\ map alpha out = repeat 255 16.
Proof. split; [discriminate|]. eexists. split; [vm_compute; reflexivity|]. vm_compute; reflexivity. Qed.
Print Assumptions C13_bc7_total.
Print Assumptions C13_bc7_reserved_zero.
Print Assumptions C13_bc7_mode_of_first_byte.
Print Assumptions C13_bc7_opaque_modes.
