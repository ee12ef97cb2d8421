(** * Specification: the messages of the crunch decoders *)
From Verif Require Import Base.

Definition one_of (l : list Z) (f : Z) : bool := existsb (Z.eqb f) l.

(** Formats by the size of their blocks in bytes; 1 is DXT3. *)
Definition wide (f : Z) : bool := one_of [1; 2; 3; 4; 5; 6; 7; 8; 12; 14] f.

(** A level of 2^32 bytes: only a build without overflow checks goes on, and
    then finds the size to be 0. *)
Definition size_lost (m : build) (f : Z) : list string :=
  match m with Wrapping => if wide f then ["Destination buffer size is too small."%string] else [] | Checked => [] end.

Definition picture_messages : list string := ["Not enough data to decode image!"; "Image buffer is too small!"]%string.

(** ** Crunch files with format number [f] *)
Definition crunch_stream (f : Z) : list string :=
  if f =? 0 then "Failed to decord DXT1 Texture"%string :: picture_messages
  else if one_of [2; 3; 4; 5; 6] f then "Failed to decord DXT5 Texture"%string :: picture_messages
  else if one_of [7; 8] f then "Failed to decord DXN Texture"%string :: picture_messages
  else if f =? 9 then "Failed to decord DXT5A Texture"%string :: picture_messages
  else if f =? 1 then ["Invalid format for unpacking."%string]
  else ["Crunch Row size is below the minimum allowed."%string].
Definition crunch_errors (m : build) (f : Z) : list string :=
  "Invalid crunch texture encoding."%string ::
  if 15 <? f then []
  else "Failed to initialize Crunch decompressor."%string ::
    (if 11 <=? f then ["Texture format is not supported."%string]
     else size_lost m f ++ "Level offset mismatch."%string :: crunch_stream f).

(** ** Unity crunch files with format number [f] *)
Definition unity_stream (f : Z) : list string :=
  if one_of [0; 13] f then "Failed to decode DXT1 Texture."%string :: picture_messages
  else if one_of [2; 3; 4; 5; 6; 14] f then "Failed to decode DXT5 Texture."%string :: picture_messages
  else if one_of [7; 8] f then "Failed to decode DXN Texture."%string :: picture_messages
  else if f =? 9 then "Failed to decode DXT5A Texture."%string :: picture_messages
  else if one_of [10; 11] f then "Failed to decode ETC1 Texture."%string :: picture_messages
  else if f =? 12 then "Failed to decode ETC2 Texture."%string :: picture_messages
  else ["Invalid format for unpacking."%string].
Definition unity_errors (m : build) (f : Z) : list string :=
  "Invalid crunch texture encoding."%string ::
  if 15 <? f then []
  else "Failed to initialize Crunch decompressor."%string ::
    (if 15 <=? f then ["Texture format is not supported."%string]
     else size_lost m f ++ "Level offset mismatch."%string :: unity_stream f).
