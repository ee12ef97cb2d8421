(** * C63: bytes behind the end of a crunch file; C38: files cut short *)
From Verif Require Import Base BaseLemmas ModelColor ModelCrn ModelCrunch ModelUnity
  SpecCrn SpecCrnHeader SpecCrnLevel SpecCrnFile SpecUnity SpecUnityFile ProofCrnHeader PropCrunch PropUnity ProofTrailing.

(** ** C63 *)
Lemma u32_len (data : list Z) : zlen data < 2 ^ 32 -> u32 (zlen data) = zlen data.
Proof. intros H. unfold u32. rewrite Z.mod_small; [reflexivity|pose proof (zlen_nonneg data); lia]. Qed.

(** Appending any bytes to a crunch file changes none of its levels ... *)
Theorem C63_crunch_level m data e k level D : bytes e -> written data k -> level_written data k level D ->
  unpackable m data level ->
  crunch_unpack_level m (data ++ e) (zlen (data ++ e)) level = crunch_unpack_level m data (zlen data) level.
Proof.
  intros He HW HL U. pose proof HW as (_ & HM & HR & _).
  rewrite (proj1 (C41_level_code m data k level D HW HL) U).
  assert (unpackable m (data ++ e) level) as U' by (unfold unpackable in *; rewrite !number_more by lia; exact U).
  rewrite (proj1 (C41_level_code m (data ++ e) k level D (written_more data e k He HW) (level_written_more data e k level D HW HL)) U').
  rewrite number_more, blocks_more by lia. reflexivity.
Qed.
(** ... and the picture decoded into any image, whatever size is asked for, is the same. *)
Theorem C63_crunch_file m data e k D w h image : bytes e -> zlen (data ++ e) < 2 ^ 32 ->
  written data k -> level_written data k 0 D -> unpackable m data 0 ->
  decode_crunch m (data ++ e) w h image = decode_crunch m data w h image.
Proof.
  intros He Hl HW HL U. assert (zlen data < 2 ^ 32) as Hl' by (rewrite zlen_app in Hl; pose proof (zlen_nonneg e); lia).
  unfold decode_crunch. rewrite !u32_len by assumption. rewrite (C63_crunch_level m data e k 0 D He HW HL U). reflexivity.
Qed.
(** The same for Unity crunch. *)
Theorem C63_unity_level m data e k level L : bytes e -> u_written data k -> u_level_written data k level L ->
  u_unpackable m data level ->
  unity_crunch_unpack_level m (data ++ e) (zlen (data ++ e)) level = unity_crunch_unpack_level m data (zlen data) level.
Proof.
  intros He HW HL U. pose proof HW as (_ & HM & HR & _).
  rewrite (proj1 (C43_unity_level_code m data k level L HW HL) U).
  assert (u_unpackable m (data ++ e) level) as U' by (unfold u_unpackable in *; rewrite !number_more by lia; exact U).
  rewrite (proj1 (C43_unity_level_code m (data ++ e) k level L (u_written_more data e k He HW) (u_level_written_more data e k level L HW HL)) U').
  rewrite number_more, u_blocks_more by lia. reflexivity.
Qed.
Theorem C63_unity_file m data e k L w h image : bytes e -> zlen (data ++ e) < 2 ^ 32 ->
  u_written data k -> u_level_written data k 0 L -> u_unpackable m data 0 ->
  decode_unity_crunch m (data ++ e) w h image = decode_unity_crunch m data w h image.
Proof.
  intros He Hl HW HL U. assert (zlen data < 2 ^ 32) as Hl' by (rewrite zlen_app in Hl; pose proof (zlen_nonneg e); lia).
  unfold decode_unity_crunch. rewrite !u32_len by assumption. rewrite (C63_unity_level m data e k 0 L He HW HL U). reflexivity.
Qed.

(** ** C38: files cut short *)
(** The first [n] bytes of a file that says it is longer: an error, or a panic
    if the cut is inside the table of level offsets. *)
Theorem C38_cut_code m data n w h image : bytes data -> zlen data < 2 ^ 32 -> 0 <= n < number data 6 4 -> n <= zlen data ->
  let r := if (74 <=? n) && (n <? header_room data) then Panic
           else Ok (Failed "Invalid crunch texture encoding.", image) in
  decode_crunch m (firstn (Z.to_nat n) data) w h image = r /\
  decode_unity_crunch m (firstn (Z.to_nat n) data) w h image = r.
Proof.
  intros Hb Hl Hn Hz r. set (d := firstn (Z.to_nat n) data).
  assert (zlen d = n) as Ld by (unfold d; rewrite zlen_firstn; lia).
  assert (bytes d) as Bd by (apply bytes_firstn; exact Hb).
  assert (data = d ++ skipn (Z.to_nat n) data) as E by (symmetry; apply firstn_skipn).
  destruct (Z.ltb_spec n 74) as [C|C].
  - assert (r = Ok (Failed "Invalid crunch texture encoding.", image)) as -> by (unfold r; destruct (Z.leb_spec 74 n); [lia|reflexivity]).
    apply crunch_rejected; [exact Bd|lia|left; lia].
  - assert (header_room d = header_room data) as R by (rewrite E; symmetry; apply room_more; lia).
    assert (number d 6 4 = number data 6 4) as N6 by (rewrite E; symmetry; apply number_more; lia).
    destruct (Z.ltb_spec n (header_room data)) as [C2|C2].
    + assert (r = Panic) as -> by (unfold r; destruct (Z.leb_spec 74 n); [reflexivity|lia]).
      apply crunch_short_header; [exact Bd|lia|lia].
    + assert (r = Ok (Failed "Invalid crunch texture encoding.", image)) as -> by (unfold r; rewrite andb_false_r; reflexivity).
      apply crunch_rejected; [exact Bd|lia|]. right. split; [lia|]. left.
      unfold well_formed. rewrite N6, Ld. destruct (Z.leb_spec (number data 6 4) n); [lia|]. apply andb_false_r.
Qed.

Example C63_ex m : bytes [1; 2; 3] /\ zlen (ex_file1 ++ [1; 2; 3]) = 160 /\ written ex_file1 ex_contents /\
  level_written ex_file1 ex_contents 0 ex_level1 /\ unpackable m ex_file1 0 /\
  crunch_unpack_level m (ex_file1 ++ [1; 2; 3]) 160 0 = crunch_unpack_level m ex_file1 157 0.
Proof.
  split; [repeat constructor; unfold is_byte; lia|]. split; [reflexivity|]. split; [exact ex_written1|].
  split; [exact ex_level_written1|]. split; [exact (proj1 (C41_code_ex m))|destruct m; vm_compute; reflexivity].
Qed.
Example C63_unity_ex : u_written eu_file1 eu_contents1 /\ u_level_written eu_file1 eu_contents1 0 eu_level1 /\ u_unpackable Checked eu_file1 0 /\
  unity_crunch_unpack_level Checked (eu_file1 ++ [255]) (zlen eu_file1 + 1) 0 = unity_crunch_unpack_level Checked eu_file1 (zlen eu_file1) 0.
Proof.
  split; [exact eu_written1|]. split; [exact eu_level_written1|]. split; [exact (proj1 C43_code_ex)|vm_compute; reflexivity].
Qed.
(** The file of 157 bytes cut at 156 and at 40, and one of two levels cut inside its header. *)
Example C38_cut_ex m image : number ex_file1 6 4 = 157 /\ header_room ex_file1 = 74 /\
  decode_crunch m (firstn 156 ex_file1) 4 4 image = Ok (Failed "Invalid crunch texture encoding.", image) /\
  decode_unity_crunch m (firstn 40 ex_file1) 4 4 image = Ok (Failed "Invalid crunch texture encoding.", image) /\
  (let two := replace_nth 16 2 ex_file1 in header_room two = 78 /\ decode_crunch m (firstn 75 two) 4 4 image = Panic).
Proof.
  split; [reflexivity|]. split; [reflexivity|].
  split; [exact (proj1 (C38_cut_code m ex_file1 156 4 4 image (proj1 ex_written1) ltac:(reflexivity) ltac:(vm_compute; split; congruence) ltac:(vm_compute; congruence)))|].
  split; [exact (proj2 (C38_cut_code m ex_file1 40 4 4 image (proj1 ex_written1) ltac:(reflexivity) ltac:(vm_compute; split; congruence) ltac:(vm_compute; congruence)))|].
  cbv zeta. split; [reflexivity|]. destruct m; vm_compute; reflexivity.
Qed.
Print Assumptions C63_crunch_level.
Print Assumptions C63_crunch_file.
Print Assumptions C63_unity_level.
Print Assumptions C63_unity_file.
Print Assumptions C38_cut_code.
