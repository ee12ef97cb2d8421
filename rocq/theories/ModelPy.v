(** * Model of the Python bindings (bindings/python/src/lib.rs)

    Python's own objects are not modelled: a function takes the contents of the
    `bytes` object `data` and answers with the contents of the new `bytes`
    object or an exception.  An object of the wanted size can always be
    allocated. *)
From Verif Require Import Base ModelColor ModelBc ModelBc6 ModelBc7 ModelEtc ModelPvrtc ModelAstc ModelCrunch ModelUnity.

(** bindings/python/src/lib.rs lines 63-71: the `PyResult<&PyBytes>` of a
    binding; [Raises] is a `PyValueError`. *)
Inductive answer := Returns (contents : list Z) | Raises (msg : string).

(** bindings/python/src/lib.rs line 65: the four bytes of a u32 seen through
    the transmuted slice (little-endian). *)
Definition word_bytes (v : Z) : list Z := [u8 v; u8 (Z.shiftr v 8); u8 (Z.shiftr v 16); u8 (Z.shiftr v 24)].

Section WithBuild.
Context (m : build).

(** bindings/python/src/lib.rs lines 64-65 and 132-133: the size in bytes of
    the new object, and the `&mut [u32]` made from it by `transmute`.  The
    object is zeroed by `PyBytes::new_with`.  `transmute` of `&mut [u8]` keeps
    the length, so the slice has as many words as the object has bytes: its
    first quarter is the object, the rest is the memory behind it, whose
    contents are given as [beyond]. *)
Definition py_size (width height : Z) : res Z :=
  let* n := ua m 64 (width * height) in
  ua m 64 (n * 4).
(** bindings/python/src/lib.rs:64-65 *)
Definition py_image (n : Z) (beyond : list Z) : list Z := repeat 0 (Z.to_nat (n / 4)) ++ beyond.
(** bindings/python/src/lib.rs lines 64-65: the object's bytes and the memory
    behind it afterwards. *)
Definition py_bytes (n : Z) (image : list Z) : list Z := flat_map word_bytes (firstn (Z.to_nat (n / 4)) image).
(** bindings/python/src/lib.rs:64-65 *)
Definition py_beyond (n : Z) (image : list Z) : list Z := skipn (Z.to_nat (n / 4)) image.

(** bindings/python/src/lib.rs lines 59-75: `pybind!`.  The second part of the
    result is the memory behind the object afterwards. *)
Definition pybind (decode : list Z -> Z -> Z -> list Z -> res (status * list Z))
    (data : list Z) (width height : Z) (beyond : list Z) : res (answer * list Z) :=
  let* n := py_size width height in
  let* (st, image) := decode data width height (py_image n beyond) in
  match st with
  | Done => Ok (Returns (py_bytes n image), py_beyond n image)
  | Failed msg => Ok (Raises msg, py_beyond n image)
  end.

(** bindings/python/src/lib.rs lines 124-145: `decode_astc`; `.unwrap_err()`
    panics on `Ok`, and its value, the error, is dropped. *)
Definition py_decode_astc (data : list Z) (width height block_width block_height : Z) (beyond : list Z)
  : res (answer * list Z) :=
  let* n := py_size width height in
  let* (st, image) := decode_astc m data width height block_width block_height (py_image n beyond) in
  match st with
  | Done => Panic
  | Failed _ => Ok (Returns (py_bytes n image), py_beyond n image)
  end.

(** bindings/python/src/lib.rs lines 77-120: the generic bindings. *)
Definition py_decode_atc_rgb4 := pybind (decode_atc_rgb4 m).
(** bindings/python/src/lib.rs:80 *)
Definition py_decode_atc_rgba8 := pybind (decode_atc_rgba8 m).
(** bindings/python/src/lib.rs:82-95 *)
Definition py_decode_astc_sized (x y : Z) := pybind (decode_astc_sized m x y).
(** bindings/python/src/lib.rs:97 *)
Definition py_decode_bc1 := pybind (decode_bc1 m).
(** bindings/python/src/lib.rs:98 *)
Definition py_decode_bc1a := pybind (decode_bc1a m).
(** bindings/python/src/lib.rs:99 *)
Definition py_decode_bc2 := pybind (decode_bc2 m).
(** bindings/python/src/lib.rs:100 *)
Definition py_decode_bc3 := pybind (decode_bc3 m).
(** bindings/python/src/lib.rs:101 *)
Definition py_decode_bc4 := pybind (decode_bc4 m).
(** bindings/python/src/lib.rs:102 *)
Definition py_decode_bc5 := pybind (decode_bc5 m).
(** bindings/python/src/lib.rs:103 *)
Definition py_decode_bc6_signed := pybind (decode_bc6_signed m).
(** bindings/python/src/lib.rs:104 *)
Definition py_decode_bc6_unsigned := pybind (decode_bc6_unsigned m).
(** bindings/python/src/lib.rs:105 *)
Definition py_decode_bc7 := pybind (decode_bc7 m).
(** bindings/python/src/lib.rs:107 *)
Definition py_decode_etc1 := pybind (decode_etc1 m).
(** bindings/python/src/lib.rs:108 *)
Definition py_decode_etc2_rgb := pybind (decode_etc2_rgb m).
(** bindings/python/src/lib.rs:109 *)
Definition py_decode_etc2_rgba1 := pybind (decode_etc2_rgba1 m).
(** bindings/python/src/lib.rs:110 *)
Definition py_decode_etc2_rgba8 := pybind (decode_etc2_rgba8 m).
(** bindings/python/src/lib.rs:111 *)
Definition py_decode_eacr := pybind (decode_eacr m).
(** bindings/python/src/lib.rs:112 *)
Definition py_decode_eacr_signed := pybind (decode_eacr_signed m).
(** bindings/python/src/lib.rs:113 *)
Definition py_decode_eacrg := pybind (decode_eacrg m).
(** bindings/python/src/lib.rs:114 *)
Definition py_decode_eacrg_signed := pybind (decode_eacrg_signed m).
(** bindings/python/src/lib.rs:116 *)
Definition py_decode_pvrtc_2bpp := pybind (decode_pvrtc_2bpp m).
(** bindings/python/src/lib.rs:117 *)
Definition py_decode_pvrtc_4bpp := pybind (decode_pvrtc_4bpp m).
(** bindings/python/src/lib.rs:119 *)
Definition py_decode_crunch := pybind (decode_crunch m).
(** bindings/python/src/lib.rs:120 *)
Definition py_decode_unity_crunch := pybind (decode_unity_crunch m).

End WithBuild.
