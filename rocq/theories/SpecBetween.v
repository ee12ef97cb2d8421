(** * Specification: interpolated channels stay between the end points. *)
From Verif Require Import Base BaseLemmas ModelColor SpecImage SpecBc SpecEtc SpecBc7 SpecPvrtc SpecPvrShift SpecCut.

(** Channel 0 red, 1 green, 2 blue, 3 alpha of a pixel. *)
Definition channel (c v : Z) : Z := if c =? 0 then red v else if c =? 1 then green v else if c =? 2 then blue v else alpha v.
Definition between (e0 e1 v : Z) : Prop := Z.min e0 e1 <= v <= Z.max e0 e1.

(** Channel [c] of every pixel is between the end points [e0] and [e1] of its
    texel in its block, except for the texels [except]. *)
Definition stays_between (raw c : Z) (e0 e1 : list Z -> Z -> Z) (except : list Z -> Z -> Prop) (dec : list Z -> Z -> Z -> list Z -> res (status * list Z)) : Prop :=
  forall data w h image image', sized 4 4 raw data w h image -> dec data w h image = Ok (Done, image') ->
    forall x y, 0 <= x < w -> 0 <= y < h ->
      let b := block_bytes raw (y / 4 * blocks w 4 + x / 4) data in let t := y mod 4 * 4 + x mod 4 in
      except b t \/ between (e0 b t) (e1 b t) (channel c (znth image' (y * w + x))).

(** RGB565 end points at byte [o]; only index 3 of three-colour blocks is no mix. *)
Definition c565 (c v : Z) : Z := if c =? 0 then red565 v else if c =? 1 then green565 v else blue565 v.
Definition end565 (o c : Z) (b : list Z) (_ : Z) : Z := c565 c (le16 b o).
Definition black3 (o : Z) (b : list Z) (t : Z) : Prop := le16 b o <= le16 b (o + 2) /\ index2 b (o + 4) t = 3.
(** Byte end points; only indices 6 and 7 of six-value blocks are no mix. *)
Definition byte_end (o : Z) (b : list Z) (_ : Z) : Z := znth b o.
Definition limit67 (o : Z) (b : list Z) (t : Z) : Prop := znth b o <= znth b (o + 1) /\ 6 <= index3 b o t.
(** ATC: RGB555 and RGB565; blocks with the mode bit are no mixes. *)
Definition c555 (c v : Z) : Z := if c =? 0 then atc_r0 v else if c =? 1 then atc_g0 v else atc_b0 v.
Definition end555 (o c : Z) (b : list Z) (_ : Z) : Z := c555 c (le16 b o).
Definition mode_bit (o : Z) (b : list Z) (_ : Z) : Prop := 32768 <= le16 b o.
(** BC7: the end points of the subset of the texel, in the channel that the
    rotation puts there; reserved blocks have none. *)
Definition rotated (rot c : Z) : Z := if rot =? 0 then c else if c =? 3 then rot - 1 else if c =? rot - 1 then 3 else c.
Definition end7 (e c : Z) (b : list Z) (t : Z) : Z := channel_endpoint b (bc7_mode b) (rotated (bc7_rot b) c) (2 * subset (bc7_mode b) (bc7_part b) t + e).
Definition reserved7 (b : list Z) (_ : Z) : Prop := bc7_mode b = 8.

(** PVRTC: between the expanded bounds of the end points of the four blocks
    around the pixel; [clear] pixels lose their alpha. *)
Definition rep_channel (c v : Z) : Z := if c =? 3 then rep4 v else rep5 v.
Definition pvr_between (bw : Z) (clear : (Z -> Z -> list Z) -> Z -> Z -> bool) (dec : list Z -> Z -> Z -> list Z -> res (status * list Z)) : Prop :=
  forall data w h image p q, pvr_sane bw data w h image -> 0 <= p -> 0 <= q -> blocks w bw = 2 ^ p -> blocks h 4 = 2 ^ q ->
    blocks w bw * blocks h 4 * 8 <= zlen data -> w * h <= zlen image ->
    exists image', dec data w h image = Ok (Done, image') /\
      forall x y c lo hi, 0 <= x < w -> 0 <= y < h -> 0 <= c < 4 ->
        let blk := pvr_blocks data p q in
        (forall i j, 0 <= i <= 1 -> 0 <= j <= 1 ->
           let b := blk (((x - bw / 2) / bw + i) mod 2 ^ p) (((y - 2) / 4 + j) mod 2 ^ q) in lo <= pvr_a b c <= hi /\ lo <= pvr_b b c <= hi) ->
        (c = 3 /\ clear blk x y = true /\ channel c (znth image' (y * w + x)) = 0) \/
        rep_channel c lo <= channel c (znth image' (y * w + x)) <= rep_channel c hi.
