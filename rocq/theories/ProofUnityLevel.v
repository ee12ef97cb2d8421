(** * Proofs about the unpackers of Unity crunch levels. *)
From Verif Require Import Base BaseLemmas ModelCrn ModelCrunch ModelUnity SpecCrn SpecCrnLevel SpecUnity
  ProofHuff ProofCrnIndex ProofCrnGrid ProofCrnLevel ProofUnityGrid.

Lemma nth_replace {A} (d : A) (l : list A) i j v : 0 <= i < zlen l -> 0 <= j ->
  nth (Z.to_nat j) (replace_nth (Z.to_nat i) v l) d = if j =? i then v else nth (Z.to_nat j) l d.
Proof.
  intros Hi Hj. destruct (Z.eqb_spec j i) as [->|N].
  - unfold zlen in Hi. revert Hi. generalize (Z.to_nat i) as k, (Z2Nat.id i). intros k Ek Hi.
    assert (k < length l)%nat as Hk by lia. clear - Hk. revert k Hk. induction l as [|a l IH]; intros [|k] Hk; cbn [length replace_nth nth] in *; try lia; [reflexivity|]. apply IH. lia.
  - assert (Z.to_nat i <> Z.to_nat j) as Nk by lia. generalize dependent (Z.to_nat j). generalize (Z.to_nat i). clear. intros k.
    revert k. induction l as [|a l IH]; intros [|k] [|j] Nk; cbn [replace_nth nth]; try reflexivity; try lia. apply IH. lia.
Qed.
Lemma zlen_replace {A} (l : list A) k v : zlen (replace_nth k v l) = zlen l.
Proof. unfold zlen. f_equal. revert k. induction l as [|a l IH]; intros [|k]; cbn [replace_nth length]; auto. Qed.

Lemma land_1_mod a : Z.land a 1 = a mod 2.
Proof. change 1 with (Z.ones 1). rewrite Z.land_ones by lia. reflexivity. Qed.
Lemma land_3_mod a : Z.land a 3 = a mod 4.
Proof. change 3 with (Z.ones 2). rewrite Z.land_ones by lia. reflexivity. Qed.

Section Unity.
Context (m : build) (u : unpacker) (W H faces : Z).
Hypothesis HW : 1 <= W.
Hypothesis HH : 1 <= H.
Hypothesis HF : 1 <= faces.
Hypothesis HS : faces = 1 \/ H mod 2 = 0.
Hypothesis HM : m = Wrapping \/ W mod 2 = 0.
Notation feeds := (feeds m u).
Notation cols := (u_cols W).
Notation rows := (u_rows H).
Notation place := (u_place W H).

Lemma place_coords f x y : 0 <= f -> 0 <= x < cols -> 0 <= y < rows ->
  0 <= place f x y /\ u_row W (place f x y) = f * rows + y /\ u_col W (place f x y) = x /\ u_row W (place f x y) mod 2 = y mod 2.
Proof.
  intros Hf Hx Hy. pose proof (u_rows_bounds H HH) as RB. unfold u_row, u_col, u_place.
  assert (0 <= f * rows + y) as R0 by nia.
  assert (((f * rows + y) * cols + x) / cols = f * rows + y) as -> by (symmetry; apply Z.div_unique with x; lia).
  assert (((f * rows + y) * cols + x) mod cols = x) as -> by (symmetry; apply Z.mod_unique with (f * rows + y); lia).
  split; [nia|]. split; [reflexivity|]. split; [reflexivity|].
  unfold u_rows. unfold even_up. rewrite Z.add_comm. replace (f * (2 * ((H + 1) / 2))) with (f * ((H + 1) / 2) * 2) by ring. apply Z.mod_add. lia.
Qed.

Section Family.
Context (planes : list plane) (order : list Z) (D : u_symbols) (field : Z -> elem -> Z).
Hypothesis HD : u_sensible planes D.
Hypothesis Hends : forall p, 0 <= p < zlen planes -> 0 < pl_ends (plane_at planes p) < 65536.

Notation source := (u_source W D).
Notation index := (u_end_index W planes D).

Lemma source_range n : 0 <= source n < 4.
Proof. apply Z.mod_pos_bound. lia. Qed.

Lemma index_eq p n : 0 <= n -> index p n =
  if source n =? 0 then (index p (n - 1) + u_end D p n) mod pl_ends (plane_at planes p)
  else if source n =? 1 then index p (n - 1) else index p (n - cols).
Proof.
  intros Hn. pose proof (u_cols_bounds W HW) as CB. unfold u_end_index at 1. rewrite value_eq; [reflexivity|exact Hn|].
  intros h h' E. rewrite !E by lia. reflexivity.
Qed.
Lemma index_range p n : 0 <= p < zlen planes -> 0 <= index p n < pl_ends (plane_at planes p).
Proof.
  intros Hp. pose proof (Hends p Hp) as B.
  unfold u_end_index. apply (value_inv (fun v => 0 <= v < pl_ends (plane_at planes p))); [lia|].
  intros h k Ih. destruct (source k =? 0); [apply Z.mod_pos_bound; lia|]. destruct (source k =? 1); apply Ih.
Qed.

(** The last block handled in a column. *)
Definition last_in (n x : Z) : Z := if x <? u_col W n then u_row W n * cols + x else (u_row W n - 1) * cols + x.

Definition buffer_ok (n : Z) (buf : list elem) : Prop :=
  zlen buf = cols /\ forall x, 0 <= x < cols ->
    let b := nth (Z.to_nat x) buf default_elem in
    (forall p, 0 <= p < zlen planes -> field p b = index p (last_in n x)) /\
    (u_row W n mod 2 = 1 -> u_col W n <= x -> b_ref b = source (u_row W n * cols + x)) /\
    (u_row W n mod 2 = 0 -> x < u_col W n -> b_ref b = source ((u_row W n + 1) * cols + x)).

Definition group_ok (n g : Z) : Prop :=
  u_row W n mod 2 = 0 -> u_col W n mod 2 = 1 -> g = u_ref D (u_square W n) / 16.

Lemma buffer_start : (forall p, 0 <= p < zlen planes -> field p default_elem = 0) -> buffer_ok 0 (repeat default_elem (Z.to_nat (even_width W))).
Proof.
  intros Hf. unfold even_width. rewrite even_up_land by lia. fold (u_cols W). pose proof (u_cols_bounds W HW) as CB. split.
  - unfold zlen. rewrite repeat_length, Z2Nat.id by lia. reflexivity.
  - intros x Hx. cbv zeta.
    assert (nth (Z.to_nat x) (repeat default_elem (Z.to_nat cols)) default_elem = default_elem) as ->.
    { generalize (Z.to_nat cols) (Z.to_nat x). induction n as [|n IH]; intros [|k]; cbn [repeat nth]; auto. }
    assert (u_row W 0 = 0) as R0 by (apply Z.div_0_l; lia). assert (u_col W 0 = 0) as C0 by (apply Z.mod_0_l; lia).
    rewrite R0, C0. split; [|split].
    + intros p Hp. rewrite Hf by exact Hp. unfold last_in. rewrite R0, C0. destruct (Z.ltb_spec x 0); [lia|].
      unfold u_end_index. rewrite value_neg by lia. reflexivity.
    + change (0 mod 2) with 0. lia.
    + lia.
Qed.

(** What happens to a column when its next block is handled. *)
Lemma next_coords n : 0 <= n ->
  (u_col W n + 1 < cols /\ u_row W (n + 1) = u_row W n /\ u_col W (n + 1) = u_col W n + 1) \/
  (u_col W n + 1 = cols /\ u_row W (n + 1) = u_row W n + 1 /\ u_col W (n + 1) = 0).
Proof.
  intros Hn. pose proof (u_cols_bounds W HW) as CB. unfold u_row, u_col.
  pose proof (Z.div_mod n cols ltac:(lia)) as DM. pose proof (Z.mod_pos_bound n cols ltac:(lia)) as MB.
  destruct (Z.lt_ge_cases (n mod cols + 1) cols) as [L|L]; [left|right]; (split; [lia|]).
  - split; [symmetry; apply Z.div_unique with (n mod cols + 1); lia|symmetry; apply Z.mod_unique with (n / cols); lia].
  - split; [symmetry; apply Z.div_unique with 0; lia|symmetry; apply Z.mod_unique with (n / cols + 1); lia].
Qed.
Lemma coords n : n = u_row W n * cols + u_col W n /\ 0 <= u_col W n < cols.
Proof.
  pose proof (u_cols_bounds W HW) as CB. unfold u_row, u_col. pose proof (Z.div_mod n cols ltac:(lia)). pose proof (Z.mod_pos_bound n cols ltac:(lia)). lia.
Qed.

Lemma last_in_next n x : 0 <= n -> 0 <= x < cols -> last_in (n + 1) x = if x =? u_col W n then n else last_in n x.
Proof.
  intros Hn Hx. destruct (coords n) as [E B]. unfold last_in.
  destruct (next_coords n Hn) as [(L & -> & ->)|(L & -> & ->)].
  - destruct (Z.eqb_spec x (u_col W n)), (Z.ltb_spec x (u_col W n + 1)), (Z.ltb_spec x (u_col W n)); lia.
  - replace (u_row W n + 1 - 1) with (u_row W n) by lia.
    destruct (Z.eqb_spec x (u_col W n)), (Z.ltb_spec x 0), (Z.ltb_spec x (u_col W n)); lia.
Qed.
Lemma last_in_here n : 0 <= n -> last_in n (u_col W n) = n - cols.
Proof. intros Hn. destruct (coords n) as [E B]. unfold last_in. rewrite Z.ltb_irrefl. lia. Qed.

Lemma buffer_next n buf b : 0 <= n -> buffer_ok n buf ->
  (forall p, 0 <= p < zlen planes -> field p b = index p n) ->
  (u_row W n mod 2 = 0 -> b_ref b = source (n + cols)) ->
  exists buf', upd buf (u_col W n) b = Ok buf' /\ buffer_ok (n + 1) buf'.
Proof.
  intros Hn [L Q] Hf Hr. destruct (coords n) as [E B]. rewrite upd_ok by lia. eexists. split; [reflexivity|].
  split; [rewrite zlen_replace; exact L|]. intros x Hx. rewrite nth_replace by lia. cbv zeta.
  specialize (Q x Hx). cbv zeta in Q. destruct Q as (Q1 & Q2 & Q3).
  pose proof (Zmod_odd (u_row W n)) as O1. pose proof (Zmod_odd (u_row W n + 1)) as O2. rewrite Z.odd_add in O2. change (Z.odd 1) with true in O2.
  split; [|split].
  - intros p Hp. rewrite last_in_next by lia. destruct (x =? u_col W n); [apply Hf|apply Q1]; exact Hp.
  - intros P1 P2. destruct (next_coords n Hn) as [(Ln & E1 & E2)|(Ln & E1 & E2)]; rewrite E1, E2 in *.
    + destruct (Z.eqb_spec x (u_col W n)); [lia|]. apply Q2; [exact P1|lia].
    + assert (u_row W n mod 2 = 0) as Ev by (rewrite O1; rewrite O2 in P1; destruct (Z.odd (u_row W n)); cbn in *; congruence).
      destruct (Z.eqb_spec x (u_col W n)) as [->|N]; [rewrite Hr by exact Ev; f_equal; lia|apply Q3; [exact Ev|lia]].
  - intros P1 P2. destruct (next_coords n Hn) as [(Ln & E1 & E2)|(Ln & E1 & E2)]; rewrite E1, E2 in *; [|lia].
    destruct (Z.eqb_spec x (u_col W n)) as [->|N]; [rewrite Hr by exact P1; f_equal; lia|apply Q3; [exact P1|lia]].
Qed.

(** The four references of a square. *)
Lemma square_even f x y : 0 <= f -> 0 <= x < cols -> 0 <= y < rows -> y mod 2 = 0 -> let n := place f x y in
  u_square W (n + cols) = u_square W n /\ u_row W (n + cols) = u_row W n + 1 /\ u_col W (n + cols) = u_col W n /\
  (x mod 2 = 0 -> u_square W (n + 1) = u_square W n /\ u_row W (n + 1) = u_row W n /\ u_col W (n + 1) = x + 1).
Proof.
  intros Hf Hx Hy Ev n. destruct (place_coords f x y Hf Hx Hy) as (N0 & E1 & E2 & E3). fold n in N0, E1, E2, E3.
  pose proof (u_cols_bounds W HW) as CB. destruct (coords n) as [En Bn].
  assert (u_row W (n + cols) = u_row W n + 1) as R1 by (unfold u_row at 1; symmetry; apply Z.div_unique with (u_col W n); lia).
  assert (u_col W (n + cols) = u_col W n) as C1 by (unfold u_col at 1; symmetry; apply Z.mod_unique with (u_row W n + 1); lia).
  assert (u_row W n mod 2 = 0) as Er by lia. pose proof (Z.div_mod (u_row W n) 2 ltac:(lia)) as Dr.
  split; [|split; [exact R1|split; [exact C1|]]].
  - unfold u_square. rewrite R1, C1. assert ((u_row W n + 1) / 2 = u_row W n / 2) as -> by (symmetry; apply Z.div_unique with 1; lia). reflexivity.
  - intros Ex. pose proof (Z.div_mod x 2 ltac:(lia)) as Dx. pose proof (even_up_mod W) as Ec. fold (u_cols W) in Ec. pose proof (Z.div_mod cols 2 ltac:(lia)) as Dc.
    destruct (next_coords n N0) as [(Ln & F1 & F2)|(Ln & F1 & F2)]; [|lia].
    split; [|split; [exact F1|lia]]. unfold u_square. rewrite F1, F2, E2. 
    assert ((x + 1) / 2 = x / 2) as -> by (symmetry; apply Z.div_unique with 1; lia). reflexivity.
Qed.

Lemma reference_ok msg f x y g buf cd rest : 0 <= f < faces -> 0 <= x < cols -> 0 <= y < rows ->
  let n := place f x y in
  group_ok n g -> buffer_ok n buf ->
  feeds cd ((if (u_row W n mod 2 =? 0) && (u_col W n mod 2 =? 0) then [(Chunks, u_ref D (u_square W n))] else []) ++ rest) ->
  exists g' b' cd', unity_reference m msg u y x g buf cd = Ok (source n, g', b', cd') /\ feeds cd' rest /\ group_ok (n + 1) g' /\
    b_color b' = b_color (nth (Z.to_nat x) buf default_elem) /\ b_alpha0 b' = b_alpha0 (nth (Z.to_nat x) buf default_elem) /\
    b_alpha1 b' = b_alpha1 (nth (Z.to_nat x) buf default_elem) /\ (u_row W n mod 2 = 0 -> b_ref b' = source (n + cols)).
Proof.
  intros Hf Hx Hy n G [L Bf] F. destruct (place_coords f x y ltac:(lia) Hx Hy) as (N0 & E1 & E2 & E3). fold n in N0, E1, E2, E3.
  pose proof (Z.mod_pos_bound y 2 ltac:(lia)) as My. pose proof (Z.mod_pos_bound x 2 ltac:(lia)) as Mx.
  pose proof (proj1 HD (u_square W n)) as RG. set (s := u_ref D (u_square W n)) in *.
  unfold unity_reference. rewrite !land_1_mod. rewrite E3, E2 in F.
  rewrite (idx_ok_d default_elem buf x) by lia.
  specialize (Bf x Hx). cbv zeta in Bf. destruct Bf as (_ & B2 & _). set (b := nth (Z.to_nat x) buf default_elem) in *.
  destruct (Z.eqb_spec (y mod 2) 0) as [Ey|Ey]; cbn [andb] in *.
  - destruct (square_even f x y ltac:(lia) Hx Hy Ey) as (S1 & S2 & S3 & S4). fold n in S1, S2, S3, S4.
    assert (u_row W n mod 2 = 0) as Er by lia.
    assert (u_row W (n + cols) mod 2 = 1) as Er2.
    { rewrite S2. rewrite Z.add_mod, Er by lia. reflexivity. }
    destruct (Z.eqb_spec (x mod 2) 0) as [Ex|Ex].
    + cbn [app ProofCrnLevel.feeds fst snd dm_of] in F. destruct F as (cd' & Dc & F). rewrite Dc. cbn [or_err bind].
      rewrite Ey. cbn [Z.eqb]. assert (u8 s = s) as -> by (unfold u8; apply Z.mod_small; lia).
      rewrite !land_3_mod. rewrite !shr_div by lia. change (2 ^ 2) with 4.
      assert (s mod 4 = source n) as ->.
      { unfold u_source. fold s. rewrite E3, E2, Ey, Ex. change (4 ^ (2 * 0 + 0)) with 1. rewrite Z.div_1_r. reflexivity. }
      do 3 eexists. split; [reflexivity|]. split; [exact F|]. split; [|split; [reflexivity|split; [reflexivity|split; [reflexivity|]]]].
      * intros _ _. destruct (S4 Ex) as (-> & _). fold s. rewrite Z.div_div by lia. reflexivity.
      * intros _. cbn [set_ref b_ref]. unfold u_source. rewrite S1, S3, Er2, E2, Ex. reflexivity.
    + cbn [app bind] in *. rewrite Ey. cbn [Z.eqb].
      rewrite !land_3_mod. rewrite !shr_div by lia. change (2 ^ 2) with 4.
      assert (x mod 2 = 1) as Ex1 by lia. rewrite (G ltac:(lia) ltac:(rewrite E2; exact Ex1)). fold s.
      assert ((s / 16) mod 4 = source n) as ->.
      { unfold u_source. fold s. rewrite E3, E2, Ey, Ex1. reflexivity. }
      do 3 eexists. split; [reflexivity|]. split; [exact F|]. split; [|split; [reflexivity|split; [reflexivity|split; [reflexivity|]]]].
      * intros Q1 Q2. exfalso. destruct (next_coords n N0) as [(Ln & F1 & F2)|(Ln & F1 & F2)].
        -- rewrite F2, E2, Z.add_mod, Ex1 in Q2 by lia. discriminate.
        -- rewrite F2 in Q2. discriminate.
      * intros _. cbn [set_ref b_ref]. unfold u_source. rewrite S1, S3, Er2, E2, Ex1. fold s. change (4 ^ (2 * 1 + 1)) with (16 * 4). rewrite Z.div_div by lia. reflexivity.
  - assert (y mod 2 = 1) as Ey1 by lia. rewrite Ey1 in *. cbn [app bind Z.eqb] in *.
    rewrite B2 by lia. destruct (coords n) as [En _].
    replace (u_row W n * cols + x) with n by lia. pose proof (source_range n) as Rs.
    assert (u8 (source n) = source n) as -> by (unfold u8; apply Z.mod_small; lia).
    do 3 eexists. split; [reflexivity|]. split; [exact F|]. split; [|split; [reflexivity|split; [reflexivity|split; [reflexivity|lia]]]].
    intros Q1 Q2. exfalso. destruct (next_coords n N0) as [(Ln & F1 & F2)|(Ln & F1 & F2)].
    + rewrite F1 in Q1. lia.
    + rewrite F2 in Q2. discriminate.
Qed.

(** One index. *)
Lemma end_advance msg kd p n cd rest : 0 <= n -> 0 <= p < zlen planes -> source n = 0 -> pl_end (plane_at planes p) = kd ->
  feeds cd ((kd, u_end D p n) :: rest) ->
  exists cd', unity_advance m msg (dm_of u kd) (pl_ends (plane_at planes p)) (index p (n - 1)) cd = Ok (index p n, cd') /\ feeds cd' rest.
Proof.
  intros Hn Hp Es Ek (cd' & Dc & F). cbn [fst snd] in Dc. exists cd'. split; [|exact F].
  pose proof (Hends p Hp) as B. pose proof (index_range p (n - 1) Hp) as R. destruct HD as (_ & D1 & _). specialize (D1 p n Hp).
  rewrite (unity_advance_ok m msg _ (pl_ends (plane_at planes p)) _ cd (u_end D p n) cd') by (auto; lia).
  rewrite (index_eq p n) by exact Hn. rewrite Es. reflexivity.
Qed.
Lemma u16_index p n : 0 <= p < zlen planes -> u16 (index p n) = index p n.
Proof. intros Hp. pose proof (Hends p Hp) as B. pose proof (index_range p n Hp) as R. unfold u16. apply Z.mod_small. lia. Qed.
Lemma field_here n buf p : 0 <= n -> buffer_ok n buf -> 0 <= p < zlen planes ->
  field p (nth (Z.to_nat (u_col W n)) buf default_elem) = index p (n - cols).
Proof.
  intros Hn [L Q] Hp. destruct (coords n) as [E B]. destruct (Q (u_col W n) B) as (Q1 & _). rewrite Q1 by exact Hp. rewrite last_in_here by exact Hn. reflexivity.
Qed.

Definition u_from (n : Z) : list (kind * Z) := flat_map (u_block_symbols W planes order D) (zrange n (u_blocks W H faces)).
Lemma u_from_cons n : 0 <= n < u_blocks W H faces ->
  u_from n = (if (u_row W n mod 2 =? 0) && (u_col W n mod 2 =? 0) then [(Chunks, u_ref D (u_square W n))] else []) ++
    (if u_source W D n =? 0 then map (fun p => (pl_end (plane_at planes p), u_end D p n)) order else []) ++
    map (fun p => (pl_sel (plane_at planes p), u_sel D p n)) order ++ u_from (n + 1).
Proof.
  intros Hn. unfold u_from. rewrite (zrange_cons n) by lia. cbn [flat_map]. unfold u_block_symbols at 1. rewrite <- !app_assoc. reflexivity.
Qed.
End Family.

Lemma place_range f x y : 0 <= f < faces -> 0 <= x < cols -> 0 <= y < rows -> 0 <= place f x y < u_blocks W H faces.
Proof.
  intros Hf Hx Hy. unfold u_place, u_blocks. assert (0 <= f * rows) by nia. assert (f * rows + y + 1 <= faces * rows) by nia. nia.
Qed.

(** ** The formats *)
Notation ap := (alpha_plane (u_alpha_endpoints u) (u_alpha_selectors u)).
Notation cp := (color_plane (u_color_endpoints u) (u_color_selectors u)).
Notation AE := (u_alpha_endpoints u).
Notation AS := (u_alpha_selectors u).
Notation CE := (u_color_endpoints u).
Notation CS := (u_color_selectors u).

Definition u_color_ready : Prop := 0 < zlen CE < 65536.
Definition u_alpha_ready : Prop := 0 < zlen AE < 65536 /\ ProofCrnLevel.words AE /\ ProofCrnLevel.words AS.

Lemma unity_alpha_words_ok k : 0 <= k -> k + 3 <= zlen AS ->
  unity_alpha_words u k = Ok (znth AS k, znth AS (k + 1), znth AS (k + 2)).
Proof.
  intros Hk L. unfold unity_alpha_words. rewrite slice_from_ok by lia. cbn [bind].
  assert (forall j, 0 <= j < 3 -> idx (skipn (Z.to_nat k) AS) j = Ok (znth AS (k + j))) as K.
  { intros j Hj. rewrite idx_ok by (rewrite zlen_skipn; lia). rewrite znth_skipn by lia. do 2 f_equal. lia. }
  rewrite !K by lia. cbn [bind]. rewrite Z.add_0_r. reflexivity.
Qed.
Lemma third s l : 0 <= s < l / 3 -> 0 <= 3 * s /\ 3 * s + 3 <= l.
Proof. intros Hs. pose proof (Z.div_mod l 3 ltac:(lia)). pose proof (Z.mod_pos_bound l 3 ltac:(lia)). lia. Qed.

Lemma visible_split x y : (y <? H) && (x <? W) = true -> x < W /\ y < H.
Proof. intros V. apply andb_true_iff in V. destruct V as [V1 V2]. apply Z.ltb_lt in V1. apply Z.ltb_lt in V2. auto. Qed.
Lemma u_alpha_len e s : zlen (pl_block ap e s) = 8.
Proof. cbn [alpha_plane pl_block]. rewrite !zlen_app, !zlen_le by lia. reflexivity. Qed.
Lemma u_color_len e s : zlen (pl_block cp e s) = 8.
Proof. cbn [color_plane pl_block]. rewrite !zlen_app, !zlen_le by lia. reflexivity. Qed.

(** *** DXT1 *)
Section Dxt1.
Context (D : u_symbols).
Hypothesis HC : u_color_ready.
Hypothesis HD : u_sensible [cp] D.
Hypothesis HZ : (faces * H + 2) * (W + 2) * (4 * 2) <= 2 ^ 48.
Let field (p : Z) (b : elem) : Z := b_color b.
Notation index := (u_end_index W [cp] D).

Lemma ends1 p : 0 <= p < zlen [cp] -> 0 < pl_ends (plane_at [cp] p) < 65536.
Proof. intros Hp. cbn in Hp. assert (p = 0) as -> by lia. exact HC. Qed.
Lemma block1_len n : zlen (u_block W [cp] D n) = 4 * 2.
Proof. unfold u_block. change (plane_nos [cp]) with [0]. cbn [flat_map]. rewrite app_nil_r. apply u_color_len. Qed.

Definition u_dxt1_rel (n : Z) (st : Z * Z * list elem * codec * list Z) : Prop :=
  let '(ce, g, buf, cd, dst) := st in
  ce = index 0 (n - 1) /\ group_ok D n g /\ buffer_ok [cp] D field n buf /\
  feeds cd (u_from [cp] [0] D n) /\ u_filled W H faces 2 (u_block W [cp] D) n dst.

Lemma u_dxt1_block_ok f x y st : 0 <= f < faces -> 0 <= x < cols -> 0 <= y < rows -> u_dxt1_rel (place f x y) st ->
  exists st', unity_dxt1_block m u y x ((y <? H) && (x <? W)) (u_visible_no W H f x y * 2) st = Ok st' /\ u_dxt1_rel (place f x y + 1) st'.
Proof.
  intros Hf Hx Hy. destruct st as [[[[ce g] buf] cd] dst]. intros (E1 & G & Bf & F & Fl).
  pose proof (place_range f x y Hf Hx Hy) as Rn. destruct (place_coords f x y ltac:(lia) Hx Hy) as (_ & _ & Ex & _).
  rewrite u_from_cons in F by lia. unfold unity_dxt1_block. cbv zeta.
  destruct (reference_ok [cp] D field HD "Failed to decode DXT1 Texture." f x y g buf cd _ Hf Hx Hy G Bf F)
    as (g' & b & cd1 & -> & F1 & G' & Bc & _ & _ & Br). cbn [bind].
  pose proof (field_here [cp] D field (place f x y) buf 0 ltac:(lia) Bf ltac:(cbn; lia)) as Fh. rewrite Ex in Fh. unfold field in Fh. rewrite <- Bc in Fh.
  set (n := place f x y) in *. pose proof (u16_index [cp] D ends1 0 n ltac:(cbn; lia)) as U.
  pose proof (index_eq [cp] D 0 n ltac:(lia)) as IE.
  change (map (fun p => (pl_end (plane_at [cp] p), u_end D p n)) [0]) with [(ColorEnd, u_end D 0 n)] in F1.
  change (map (fun p => (pl_sel (plane_at [cp] p), u_sel D p n)) [0]) with [(ColorSel, u_sel D 0 n)] in F1.
  assert (exists b' cd', (if u_source W D n =? 0
     then
      let* (ce, cd) := unity_advance m "Failed to decode DXT1 Texture." (u_endpoint_dm0 u) (zlen CE) ce cd1 in
      Ok (ce, set_color b (u16 ce), cd)
     else if u_source W D n =? 1 then Ok (ce, set_color b (u16 ce), cd1) else Ok (b_color b, b, cd1)) = Ok (index 0 n, b', cd') /\
     b_color b' = index 0 n /\ b_ref b' = b_ref b /\ feeds cd' ((ColorSel, u_sel D 0 n) :: u_from [cp] [0] D (n + 1))) as (b' & cd2 & -> & Bn & Br' & F2).
  { destruct (Z.eqb_spec (u_source W D n) 0) as [Es|Es].
    - subst ce. destruct (end_advance [cp] D HD ends1 "Failed to decode DXT1 Texture." ColorEnd 0 n cd1 _ ltac:(lia) ltac:(cbn; lia) Es eq_refl F1) as (cd2 & A & F2).
      change (dm_of u ColorEnd) with (u_endpoint_dm0 u) in A. change (pl_ends (plane_at [cp] 0)) with (zlen CE) in A. rewrite A. cbn [bind].
      do 2 eexists. split; [reflexivity|]. cbn [set_color b_color b_ref]. split; [exact U|]. split; [reflexivity|exact F2].
    - cbn [app] in F1. destruct (Z.eqb_spec (u_source W D n) 1) as [Es1|Es1].
      + do 2 eexists. subst ce. rewrite <- IE. split; [reflexivity|]. cbn [set_color b_color b_ref]. split; [exact U|]. split; [reflexivity|exact F1].
      + do 2 eexists. rewrite Fh, <- IE. split; [reflexivity|]. split; [rewrite Fh, <- IE; reflexivity|]. split; [reflexivity|exact F1]. }
  cbn [bind]. rewrite <- Ex.
  destruct (buffer_next [cp] D field n buf b' ltac:(lia) Bf) as (buf' & -> & Bf').
  { intros p Hp. cbn in Hp. assert (p = 0) as -> by lia. exact Bn. }
  { intros Ev. rewrite Br'. apply Br, Ev. }
  cbn [bind]. destruct F2 as (cd3 & Dc & F3). cbn [fst snd dm_of] in Dc. rewrite Dc. cbn [or_err bind]. rewrite Ex.
  destruct ((y <? H) && (x <? W)) eqn:V.
  - destruct (visible_split x y V) as [Vx Vy].
    pose proof (index_range [cp] D ends1 0 n ltac:(cbn; lia)) as Ri. change (pl_ends (plane_at [cp] 0)) with (zlen CE) in Ri.
    destruct HD as (_ & _ & D2). pose proof (D2 0 n ltac:(cbn; lia)) as Rs. change (pl_sels (plane_at [cp] 0)) with (zlen CS) in Rs.
    pose proof (u_visible_range W H faces HW HH f x y Hf ltac:(lia) ltac:(lia)) as VR.
    set (q := u_visible_no W H f x y) in *. assert (zlen dst = faces * H * W * (4 * 2)) as LD by exact (proj1 Fl).
    rewrite idx_ok by lia. cbn [bind]. rewrite write_int_ok by lia. cbn [bind]. rewrite idx_ok by lia. cbn [bind].
    rewrite (put_more m dst (4 * (q * 2)) (le 4 (znth CE (index 0 n))) _ (q * 2 + 1) (znth CS (u_sel D 0 n))) by (rewrite ?zlen_le; try lia; reflexivity). cbn [bind].
    eexists. split; [reflexivity|]. split; [f_equal; lia|]. split; [exact G'|]. split; [exact Bf'|]. split; [exact F3|].
    pose proof (u_fill_visible W H faces 2 HW HH HF ltac:(lia) (u_block W [cp] D) block1_len f x y dst Hf ltac:(lia) ltac:(lia) Fl) as K.
    fold n q in K. replace (4 * (q * 2)) with (q * (4 * 2)) by ring.
    unfold u_block at 2 in K. change (plane_nos [cp]) with [0] in K. cbn [flat_map] in K. rewrite app_nil_r in K. exact K.
  - eexists. split; [reflexivity|]. split; [f_equal; lia|]. split; [exact G'|]. split; [exact Bf'|]. split; [exact F3|].
    exact (u_fill_hidden W H faces 2 HW HH HF ltac:(lia) (u_block W [cp] D) f x y dst Hf Hx Hy V Fl).
Qed.

Lemma unity_dxt1_ok cd dst : h_faces (u_header u) = faces -> feeds cd (u_level_symbols W H faces [cp] [0] D) ->
  zlen dst = faces * H * W * 8 -> unity_unpack_dxt1 m u cd dst (W * 8) W H = Ok (u_level_blocks W H faces [cp] D).
Proof.
  intros Ef F L. unfold unity_unpack_dxt1. cbv zeta. rewrite Ef.
  destruct (unity_loops_ok W H faces 2 HW HH HF ltac:(lia) HS HZ ltac:(lia) m u_dxt1_rel (unity_dxt1_block m u) (0, 0, repeat default_elem (Z.to_nat (even_width W)), cd, dst) HM)
    as ([[[[ce g] buf] cd'] dst'] & E & Q).
  - split; [unfold u_end_index; rewrite value_neg by lia; reflexivity|]. split; [|split; [|split; [exact F|]]].
    + intros _ C. unfold u_col in C. rewrite Z.mod_0_l in C by (pose proof (u_cols_bounds W HW); lia). discriminate.
    + apply buffer_start. intros p _. reflexivity.
    + apply u_fill_start; auto; lia.
  - intros f x y st Hf Hx Hy. apply u_dxt1_block_ok; auto.
  - change (W * 8) with (W * (4 * 2)). rewrite E. cbn [bind]. f_equal. destruct Q as (_ & _ & _ & _ & Q).
    exact (u_fill_end W H faces 2 HW HH HF ltac:(lia) (u_block W [cp] D) block1_len dst' Q).
Qed.
End Dxt1.
(** *** DXT5A *)
Section Dxt5a.
Context (D : u_symbols).
Hypothesis HA : u_alpha_ready.
Hypothesis HD : u_sensible [ap] D.
Hypothesis HZ : (faces * H + 2) * (W + 2) * (4 * 2) <= 2 ^ 48.
Let field (p : Z) (b : elem) : Z := b_alpha0 b.
Notation index := (u_end_index W [ap] D).

Lemma ends5a p : 0 <= p < zlen [ap] -> 0 < pl_ends (plane_at [ap] p) < 65536.
Proof. intros Hp. cbn in Hp. assert (p = 0) as -> by lia. exact (proj1 HA). Qed.
Lemma block5a_len n : zlen (u_block W [ap] D n) = 4 * 2.
Proof. unfold u_block. change (plane_nos [ap]) with [0]. cbn [flat_map]. rewrite app_nil_r. apply u_alpha_len. Qed.

Definition u_dxt5a_rel (n : Z) (st : Z * Z * list elem * codec * list Z) : Prop :=
  let '(ce, g, buf, cd, dst) := st in
  ce = index 0 (n - 1) /\ group_ok D n g /\ buffer_ok [ap] D field n buf /\
  feeds cd (u_from [ap] [0] D n) /\ u_filled W H faces 2 (u_block W [ap] D) n dst.

Lemma u_dxt5a_block_ok f x y st : 0 <= f < faces -> 0 <= x < cols -> 0 <= y < rows -> u_dxt5a_rel (place f x y) st ->
  exists st', unity_dxt5a_block m u y x ((y <? H) && (x <? W)) (u_visible_no W H f x y * 2) st = Ok st' /\ u_dxt5a_rel (place f x y + 1) st'.
Proof.
  intros Hf Hx Hy. destruct st as [[[[ce g] buf] cd] dst]. intros (E1 & G & Bf & F & Fl).
  pose proof (place_range f x y Hf Hx Hy) as Rn. destruct (place_coords f x y ltac:(lia) Hx Hy) as (_ & _ & Ex & _).
  rewrite u_from_cons in F by lia. unfold unity_dxt5a_block. cbv zeta.
  destruct (reference_ok [ap] D field HD "Failed to decode DXT5A Texture." f x y g buf cd _ Hf Hx Hy G Bf F)
    as (g' & b & cd1 & -> & F1 & G' & _ & Bc & _ & Br). cbn [bind].
  pose proof (field_here [ap] D field (place f x y) buf 0 ltac:(lia) Bf ltac:(cbn; lia)) as Fh. rewrite Ex in Fh. unfold field in Fh. rewrite <- Bc in Fh.
  set (n := place f x y) in *. pose proof (u16_index [ap] D ends5a 0 n ltac:(cbn; lia)) as U.
  pose proof (index_eq [ap] D 0 n ltac:(lia)) as IE.
  change (map (fun p => (pl_end (plane_at [ap] p), u_end D p n)) [0]) with [(AlphaEnd, u_end D 0 n)] in F1.
  change (map (fun p => (pl_sel (plane_at [ap] p), u_sel D p n)) [0]) with [(AlphaSel, u_sel D 0 n)] in F1.
  assert (exists b' cd', (if u_source W D n =? 0
     then
      let* (ce, cd) := unity_advance m "Failed to decode DXT5A Texture." (u_endpoint_dm1 u) (zlen AE) ce cd1 in
      Ok (ce, set_alpha0 b (u16 ce), cd)
     else if u_source W D n =? 1 then Ok (ce, set_alpha0 b (u16 ce), cd1) else Ok (b_alpha0 b, b, cd1)) = Ok (index 0 n, b', cd') /\
     b_alpha0 b' = index 0 n /\ b_ref b' = b_ref b /\ feeds cd' ((AlphaSel, u_sel D 0 n) :: u_from [ap] [0] D (n + 1))) as (b' & cd2 & -> & Bn & Br' & F2).
  { destruct (Z.eqb_spec (u_source W D n) 0) as [Es|Es].
    - subst ce. destruct (end_advance [ap] D HD ends5a "Failed to decode DXT5A Texture." AlphaEnd 0 n cd1 _ ltac:(lia) ltac:(cbn; lia) Es eq_refl F1) as (cd2 & A & F2).
      change (dm_of u AlphaEnd) with (u_endpoint_dm1 u) in A. change (pl_ends (plane_at [ap] 0)) with (zlen AE) in A. rewrite A. cbn [bind].
      do 2 eexists. split; [reflexivity|]. cbn [set_alpha0 b_alpha0 b_ref]. split; [exact U|]. split; [reflexivity|exact F2].
    - cbn [app] in F1. destruct (Z.eqb_spec (u_source W D n) 1) as [Es1|Es1].
      + do 2 eexists. subst ce. rewrite <- IE. split; [reflexivity|]. cbn [set_alpha0 b_alpha0 b_ref]. split; [exact U|]. split; [reflexivity|exact F1].
      + do 2 eexists. rewrite Fh, <- IE. split; [reflexivity|]. split; [rewrite Fh, <- IE; reflexivity|]. split; [reflexivity|exact F1]. }
  cbn [bind]. rewrite <- Ex.
  destruct (buffer_next [ap] D field n buf b' ltac:(lia) Bf) as (buf' & -> & Bf').
  { intros p Hp. cbn in Hp. assert (p = 0) as -> by lia. exact Bn. }
  { intros Ev. rewrite Br'. apply Br, Ev. }
  cbn [bind]. destruct F2 as (cd3 & Dc & F3). cbn [fst snd dm_of] in Dc. rewrite Dc. cbn [or_err bind]. rewrite Ex.
  destruct ((y <? H) && (x <? W)) eqn:V.
  - destruct (visible_split x y V) as [Vx Vy].
    pose proof (index_range [ap] D ends5a 0 n ltac:(cbn; lia)) as Ri. change (pl_ends (plane_at [ap] 0)) with (zlen AE) in Ri.
    destruct HD as (_ & _ & D2). pose proof (D2 0 n ltac:(cbn; lia)) as Rs. change (pl_sels (plane_at [ap] 0)) with (zlen AS / 3) in Rs.
    pose proof (u_visible_range W H faces HW HH f x y Hf ltac:(lia) ltac:(lia)) as VR.
    set (q := u_visible_no W H f x y) in *. assert (zlen dst = faces * H * W * (4 * 2)) as LD by exact (proj1 Fl).
    destruct (third _ _ Rs) as [T1 T2]. rewrite unity_alpha_words_ok by lia. cbn [bind]. rewrite idx_ok by lia. cbn [bind].
    destruct HA as (_ & A1 & A2). rewrite write_alpha_ok by (try apply words_znth; auto; lia). cbn [bind].
    eexists. split; [reflexivity|]. split; [f_equal; lia|]. split; [exact G'|]. split; [exact Bf'|]. split; [exact F3|].
    pose proof (u_fill_visible W H faces 2 HW HH HF ltac:(lia) (u_block W [ap] D) block5a_len f x y dst Hf ltac:(lia) ltac:(lia) Fl) as K.
    fold n q in K. replace (4 * (q * 2)) with (q * (4 * 2)) by ring.
    unfold u_block at 2 in K. change (plane_nos [ap]) with [0] in K. cbn [flat_map] in K. rewrite app_nil_r in K.
    change (plane_at [ap] 0) with ap in K. cbn [alpha_plane pl_block] in K. rewrite (Z.mul_comm (u_sel D 0 n) 3). exact K.
  - eexists. split; [reflexivity|]. split; [f_equal; lia|]. split; [exact G'|]. split; [exact Bf'|]. split; [exact F3|].
    exact (u_fill_hidden W H faces 2 HW HH HF ltac:(lia) (u_block W [ap] D) f x y dst Hf Hx Hy V Fl).
Qed.

Lemma unity_dxt5a_ok cd dst : h_faces (u_header u) = faces -> feeds cd (u_level_symbols W H faces [ap] [0] D) ->
  zlen dst = faces * H * W * 8 -> unity_unpack_dxt5a m u cd dst (W * 8) W H = Ok (u_level_blocks W H faces [ap] D).
Proof.
  intros Ef F L. unfold unity_unpack_dxt5a. cbv zeta. rewrite Ef.
  destruct (unity_loops_ok W H faces 2 HW HH HF ltac:(lia) HS HZ ltac:(lia) m u_dxt5a_rel (unity_dxt5a_block m u) (0, 0, repeat default_elem (Z.to_nat (even_width W)), cd, dst) HM)
    as ([[[[ce g] buf] cd'] dst'] & E & Q).
  - split; [unfold u_end_index; rewrite value_neg by lia; reflexivity|]. split; [|split; [|split; [exact F|]]].
    + intros _ C. unfold u_col in C. rewrite Z.mod_0_l in C by (pose proof (u_cols_bounds W HW); lia). discriminate.
    + apply buffer_start. intros p _. reflexivity.
    + apply u_fill_start; auto; lia.
  - intros f x y st Hf Hx Hy. apply u_dxt5a_block_ok; auto.
  - change (W * 8) with (W * (4 * 2)). rewrite E. cbn [bind]. f_equal. destruct Q as (_ & _ & _ & _ & Q).
    exact (u_fill_end W H faces 2 HW HH HF ltac:(lia) (u_block W [ap] D) block5a_len dst' Q).
Qed.
End Dxt5a.

(** *** DXT5 *)
Section Dxt5.
Context (D : u_symbols).
Hypothesis HA : u_alpha_ready.
Hypothesis HC : u_color_ready.
Notation pls := [ap; cp].
Hypothesis HD : u_sensible pls D.
Hypothesis HZ : (faces * H + 2) * (W + 2) * (4 * 4) <= 2 ^ 48.
Let field (p : Z) (b : elem) : Z := if p =? 0 then b_alpha0 b else b_color b.
Notation index := (u_end_index W pls D).

Lemma plane_cases p : 0 <= p < 2 -> p = 0 \/ p = 1.
Proof. lia. Qed.
Lemma ends5 p : 0 <= p < zlen pls -> 0 < pl_ends (plane_at pls p) < 65536.
Proof. intros Hp. destruct (plane_cases p Hp) as [-> | ->]; [exact (proj1 HA)|exact HC]. Qed.
Lemma block5_len n : zlen (u_block W pls D n) = 4 * 4.
Proof.
  unfold u_block. change (plane_nos pls) with [0; 1]. cbn [flat_map]. rewrite app_nil_r, zlen_app.
  change (plane_at pls 0) with ap. change (plane_at pls 1) with cp. rewrite u_alpha_len, u_color_len. reflexivity.
Qed.

Definition u_dxt5_rel (n : Z) (st : Z * Z * Z * list elem * codec * list Z) : Prop :=
  let '(ce, ae, g, buf, cd, dst) := st in
  ce = index 1 (n - 1) /\ ae = index 0 (n - 1) /\ group_ok D n g /\ buffer_ok pls D field n buf /\
  feeds cd (u_from pls [1; 0] D n) /\ u_filled W H faces 4 (u_block W pls D) n dst.

Lemma u_dxt5_block_ok f x y st : 0 <= f < faces -> 0 <= x < cols -> 0 <= y < rows -> u_dxt5_rel (place f x y) st ->
  exists st', unity_dxt5_block m u y x ((y <? H) && (x <? W)) (u_visible_no W H f x y * 4) st = Ok st' /\ u_dxt5_rel (place f x y + 1) st'.
Proof.
  intros Hf Hx Hy. destruct st as [[[[[ce ae] g] buf] cd] dst]. intros (E1 & E2 & G & Bf & F & Fl).
  pose proof (place_range f x y Hf Hx Hy) as Rn. destruct (place_coords f x y ltac:(lia) Hx Hy) as (_ & _ & Ex & _).
  rewrite u_from_cons in F by lia. unfold unity_dxt5_block. cbv zeta.
  destruct (reference_ok pls D field HD "Failed to decode DXT5 Texture." f x y g buf cd _ Hf Hx Hy G Bf F)
    as (g' & b & cd1 & -> & F1 & G' & Bc & Ba & _ & Br). cbn [bind].
  pose proof (field_here pls D field (place f x y) buf 0 ltac:(lia) Bf ltac:(cbn; lia)) as Fh0. rewrite Ex in Fh0. unfold field in Fh0. cbn [Z.eqb] in Fh0. rewrite <- Ba in Fh0.
  pose proof (field_here pls D field (place f x y) buf 1 ltac:(lia) Bf ltac:(cbn; lia)) as Fh1. rewrite Ex in Fh1. unfold field in Fh1. cbn [Z.eqb] in Fh1. rewrite <- Bc in Fh1.
  set (n := place f x y) in *. pose proof (u16_index pls D ends5 0 n ltac:(cbn; lia)) as U0. pose proof (u16_index pls D ends5 1 n ltac:(cbn; lia)) as U1.
  pose proof (index_eq pls D 0 n ltac:(lia)) as IE0. pose proof (index_eq pls D 1 n ltac:(lia)) as IE1.
  change (map (fun p => (pl_end (plane_at pls p), u_end D p n)) [1; 0]) with [(ColorEnd, u_end D 1 n); (AlphaEnd, u_end D 0 n)] in F1.
  change (map (fun p => (pl_sel (plane_at pls p), u_sel D p n)) [1; 0]) with [(ColorSel, u_sel D 1 n); (AlphaSel, u_sel D 0 n)] in F1.
  assert (exists b' cd', (if u_source W D n =? 0
     then
      let* (ce, cd) := unity_advance m "Failed to decode DXT5 Texture." (u_endpoint_dm0 u) (zlen CE) ce cd1 in
      let* (ae, cd) := unity_advance m "Failed to decode DXT5 Texture." (u_endpoint_dm1 u) (zlen AE) ae cd in
      Ok (ce, ae, set_alpha0 (set_color b (u16 ce)) (u16 ae), cd)
     else if u_source W D n =? 1 then Ok (ce, ae, set_alpha0 (set_color b (u16 ce)) (u16 ae), cd1) else Ok (b_color b, b_alpha0 b, b, cd1)) =
       Ok (index 1 n, index 0 n, b', cd') /\
     b_color b' = index 1 n /\ b_alpha0 b' = index 0 n /\ b_ref b' = b_ref b /\
     feeds cd' ((ColorSel, u_sel D 1 n) :: (AlphaSel, u_sel D 0 n) :: u_from pls [1; 0] D (n + 1))) as (b' & cd2 & -> & Bn1 & Bn0 & Br' & F2).
  { destruct (Z.eqb_spec (u_source W D n) 0) as [Es|Es].
    - subst ce ae. cbn [app] in F1.
      destruct (end_advance pls D HD ends5 "Failed to decode DXT5 Texture." ColorEnd 1 n cd1 _ ltac:(lia) ltac:(cbn; lia) Es eq_refl F1) as (cd2 & A & F2).
      change (dm_of u ColorEnd) with (u_endpoint_dm0 u) in A. change (pl_ends (plane_at pls 1)) with (zlen CE) in A. rewrite A. cbn [bind].
      destruct (end_advance pls D HD ends5 "Failed to decode DXT5 Texture." AlphaEnd 0 n cd2 _ ltac:(lia) ltac:(cbn; lia) Es eq_refl F2) as (cd3 & A' & F3).
      change (dm_of u AlphaEnd) with (u_endpoint_dm1 u) in A'. change (pl_ends (plane_at pls 0)) with (zlen AE) in A'. rewrite A'. cbn [bind].
      do 2 eexists. split; [reflexivity|]. cbn [set_color set_alpha0 b_color b_alpha0 b_ref]. split; [exact U1|]. split; [exact U0|]. split; [reflexivity|exact F3].
    - cbn [app] in F1. destruct (Z.eqb_spec (u_source W D n) 1) as [Es1|Es1].
      + do 2 eexists. subst ce ae. rewrite <- IE0, <- IE1. split; [reflexivity|]. cbn [set_color set_alpha0 b_color b_alpha0 b_ref]. split; [exact U1|]. split; [exact U0|]. split; [reflexivity|exact F1].
      + do 2 eexists. rewrite Fh0, Fh1, <- IE0, <- IE1. split; [reflexivity|]. split; [rewrite Fh1, <- IE1; reflexivity|]. split; [rewrite Fh0, <- IE0; reflexivity|]. split; [reflexivity|exact F1]. }
  cbn [bind]. rewrite <- Ex.
  destruct (buffer_next pls D field n buf b' ltac:(lia) Bf) as (buf' & -> & Bf').
  { intros p Hp. destruct (plane_cases p Hp) as [-> | ->]; [exact Bn0|exact Bn1]. }
  { intros Ev. rewrite Br'. apply Br, Ev. }
  cbn [bind]. destruct F2 as (cd3 & Dc & F3). cbn [fst snd dm_of] in Dc. rewrite Dc. cbn [or_err bind].
  destruct F3 as (cd4 & Dc' & F4). cbn [fst snd dm_of] in Dc'. rewrite Dc'. cbn [or_err bind]. rewrite Ex.
  destruct ((y <? H) && (x <? W)) eqn:V.
  - destruct (visible_split x y V) as [Vx Vy].
    pose proof (index_range pls D ends5 0 n ltac:(cbn; lia)) as Ri0. change (pl_ends (plane_at pls 0)) with (zlen AE) in Ri0.
    pose proof (index_range pls D ends5 1 n ltac:(cbn; lia)) as Ri1. change (pl_ends (plane_at pls 1)) with (zlen CE) in Ri1.
    destruct HD as (_ & _ & D2). pose proof (D2 0 n ltac:(cbn; lia)) as Rs0. change (pl_sels (plane_at pls 0)) with (zlen AS / 3) in Rs0.
    pose proof (D2 1 n ltac:(cbn; lia)) as Rs1. change (pl_sels (plane_at pls 1)) with (zlen CS) in Rs1.
    pose proof (u_visible_range W H faces HW HH f x y Hf ltac:(lia) ltac:(lia)) as VR.
    set (q := u_visible_no W H f x y) in *. assert (zlen dst = faces * H * W * (4 * 4)) as LD by exact (proj1 Fl).
    destruct (third _ _ Rs0) as [T1 T2]. rewrite unity_alpha_words_ok by lia. cbn [bind]. rewrite idx_ok by lia. cbn [bind].
    destruct HA as (_ & A1 & A2). rewrite write_alpha_ok by (try apply words_znth; auto; lia). cbn [bind].
    set (ab := le 2 _ ++ _). assert (zlen ab = 8) as Lab by (unfold ab; rewrite !zlen_app, !zlen_le by lia; reflexivity).
    rewrite idx_ok by lia. cbn [bind].
    rewrite (put_more m dst (4 * (q * 4)) ab _ (q * 4 + 2) (znth CE (index 1 n))) by (try reflexivity; lia). cbn [bind].
    rewrite idx_ok by lia. cbn [bind].
    rewrite (put_more m dst (4 * (q * 4)) (ab ++ le 4 (znth CE (index 1 n))) _ (q * 4 + 3) (znth CS (u_sel D 1 n))) by (try reflexivity; rewrite ?zlen_app, ?Lab, ?zlen_le; lia). cbn [bind].
    eexists. split; [reflexivity|]. split; [f_equal; lia|]. split; [f_equal; lia|]. split; [exact G'|]. split; [exact Bf'|]. split; [exact F4|].
    pose proof (u_fill_visible W H faces 4 HW HH HF ltac:(lia) (u_block W pls D) block5_len f x y dst Hf ltac:(lia) ltac:(lia) Fl) as K.
    fold n q in K. replace (4 * (q * 4)) with (q * (4 * 4)) by ring.
    unfold u_block at 2 in K. change (plane_nos pls) with [0; 1] in K. cbn [flat_map] in K. rewrite app_nil_r in K.
    change (plane_at pls 0) with ap in K. change (plane_at pls 1) with cp in K. cbn [alpha_plane color_plane pl_block] in K.
    unfold ab. rewrite (Z.mul_comm (u_sel D 0 n) 3). rewrite <- (app_assoc (le 2 _ ++ _)). exact K.
  - eexists. split; [reflexivity|]. split; [f_equal; lia|]. split; [f_equal; lia|]. split; [exact G'|]. split; [exact Bf'|]. split; [exact F4|].
    exact (u_fill_hidden W H faces 4 HW HH HF ltac:(lia) (u_block W pls D) f x y dst Hf Hx Hy V Fl).
Qed.

Lemma unity_dxt5_ok cd dst : h_faces (u_header u) = faces -> feeds cd (u_level_symbols W H faces pls [1; 0] D) ->
  zlen dst = faces * H * W * 16 -> unity_unpack_dxt5 m u cd dst (W * 16) W H = Ok (u_level_blocks W H faces pls D).
Proof.
  intros Ef F L. unfold unity_unpack_dxt5. cbv zeta. rewrite Ef.
  destruct (unity_loops_ok W H faces 4 HW HH HF ltac:(lia) HS HZ ltac:(lia) m u_dxt5_rel (unity_dxt5_block m u) (0, 0, 0, repeat default_elem (Z.to_nat (even_width W)), cd, dst) HM)
    as ([[[[[ce ae] g] buf] cd'] dst'] & E & Q).
  - split; [unfold u_end_index; rewrite value_neg by lia; reflexivity|]. split; [unfold u_end_index; rewrite value_neg by lia; reflexivity|]. split; [|split; [|split; [exact F|]]].
    + intros _ C. unfold u_col in C. rewrite Z.mod_0_l in C by (pose proof (u_cols_bounds W HW); lia). discriminate.
    + apply buffer_start. intros p _. unfold field. destruct (p =? 0); reflexivity.
    + apply u_fill_start; auto; lia.
  - intros f x y st Hf Hx Hy. apply u_dxt5_block_ok; auto.
  - change (W * 16) with (W * (4 * 4)). rewrite E. cbn [bind]. f_equal. destruct Q as (_ & _ & _ & _ & _ & Q).
    exact (u_fill_end W H faces 4 HW HH HF ltac:(lia) (u_block W pls D) block5_len dst' Q).
Qed.
End Dxt5.

(** *** DXN *)
Section Dxn.
Context (D : u_symbols).
Hypothesis HA : u_alpha_ready.
Notation pls := [ap; ap].
Hypothesis HD : u_sensible pls D.
Hypothesis HZ : (faces * H + 2) * (W + 2) * (4 * 4) <= 2 ^ 48.
Let field (p : Z) (b : elem) : Z := if p =? 0 then b_alpha0 b else b_alpha1 b.
Notation index := (u_end_index W pls D).

Lemma endsn p : 0 <= p < zlen pls -> 0 < pl_ends (plane_at pls p) < 65536.
Proof. intros Hp. destruct (plane_cases p Hp) as [-> | ->]; exact (proj1 HA). Qed.
Lemma blockn_len n : zlen (u_block W pls D n) = 4 * 4.
Proof.
  unfold u_block. change (plane_nos pls) with [0; 1]. cbn [flat_map]. rewrite app_nil_r, zlen_app.
  change (plane_at pls 0) with ap. change (plane_at pls 1) with ap. rewrite !u_alpha_len. reflexivity.
Qed.

Definition u_dxn_rel (n : Z) (st : Z * Z * Z * list elem * codec * list Z) : Prop :=
  let '(ce, ae, g, buf, cd, dst) := st in
  ce = index 0 (n - 1) /\ ae = index 1 (n - 1) /\ group_ok D n g /\ buffer_ok pls D field n buf /\
  feeds cd (u_from pls [0; 1] D n) /\ u_filled W H faces 4 (u_block W pls D) n dst.

Lemma u_dxn_block_ok f x y st : 0 <= f < faces -> 0 <= x < cols -> 0 <= y < rows -> u_dxn_rel (place f x y) st ->
  exists st', unity_dxn_block m u y x ((y <? H) && (x <? W)) (u_visible_no W H f x y * 4) st = Ok st' /\ u_dxn_rel (place f x y + 1) st'.
Proof.
  intros Hf Hx Hy. destruct st as [[[[[ce ae] g] buf] cd] dst]. intros (E1 & E2 & G & Bf & F & Fl).
  pose proof (place_range f x y Hf Hx Hy) as Rn. destruct (place_coords f x y ltac:(lia) Hx Hy) as (_ & _ & Ex & _).
  rewrite u_from_cons in F by lia. unfold unity_dxn_block. cbv zeta.
  destruct (reference_ok pls D field HD "Failed to decode DXN Texture." f x y g buf cd _ Hf Hx Hy G Bf F)
    as (g' & b & cd1 & -> & F1 & G' & _ & Ba & Bc & Br). cbn [bind].
  pose proof (field_here pls D field (place f x y) buf 0 ltac:(lia) Bf ltac:(cbn; lia)) as Fh0. rewrite Ex in Fh0. unfold field in Fh0. cbn [Z.eqb] in Fh0. rewrite <- Ba in Fh0.
  pose proof (field_here pls D field (place f x y) buf 1 ltac:(lia) Bf ltac:(cbn; lia)) as Fh1. rewrite Ex in Fh1. unfold field in Fh1. cbn [Z.eqb] in Fh1. rewrite <- Bc in Fh1.
  set (n := place f x y) in *. pose proof (u16_index pls D endsn 0 n ltac:(cbn; lia)) as U0. pose proof (u16_index pls D endsn 1 n ltac:(cbn; lia)) as U1.
  pose proof (index_eq pls D 0 n ltac:(lia)) as IE0. pose proof (index_eq pls D 1 n ltac:(lia)) as IE1.
  change (map (fun p => (pl_end (plane_at pls p), u_end D p n)) [0; 1]) with [(AlphaEnd, u_end D 0 n); (AlphaEnd, u_end D 1 n)] in F1.
  change (map (fun p => (pl_sel (plane_at pls p), u_sel D p n)) [0; 1]) with [(AlphaSel, u_sel D 0 n); (AlphaSel, u_sel D 1 n)] in F1.
  assert (exists b' cd', (if u_source W D n =? 0
     then
      let* (ce, cd) := unity_advance m "Failed to decode DXN Texture." (u_endpoint_dm1 u) (zlen AE) ce cd1 in
      let* (ae, cd) := unity_advance m "Failed to decode DXN Texture." (u_endpoint_dm1 u) (zlen AE) ae cd in
      Ok (ce, ae, set_alpha1 (set_alpha0 b (u16 ce)) (u16 ae), cd)
     else if u_source W D n =? 1 then Ok (ce, ae, set_alpha1 (set_alpha0 b (u16 ce)) (u16 ae), cd1) else Ok (b_alpha0 b, b_alpha1 b, b, cd1)) =
       Ok (index 0 n, index 1 n, b', cd') /\
     b_alpha1 b' = index 1 n /\ b_alpha0 b' = index 0 n /\ b_ref b' = b_ref b /\
     feeds cd' ((AlphaSel, u_sel D 0 n) :: (AlphaSel, u_sel D 1 n) :: u_from pls [0; 1] D (n + 1))) as (b' & cd2 & -> & Bn1 & Bn0 & Br' & F2).
  { destruct (Z.eqb_spec (u_source W D n) 0) as [Es|Es].
    - subst ce ae. cbn [app] in F1.
      destruct (end_advance pls D HD endsn "Failed to decode DXN Texture." AlphaEnd 0 n cd1 _ ltac:(lia) ltac:(cbn; lia) Es eq_refl F1) as (cd2 & A & F2).
      change (dm_of u AlphaEnd) with (u_endpoint_dm1 u) in A. change (pl_ends (plane_at pls 0)) with (zlen AE) in A. rewrite A. cbn [bind].
      destruct (end_advance pls D HD endsn "Failed to decode DXN Texture." AlphaEnd 1 n cd2 _ ltac:(lia) ltac:(cbn; lia) Es eq_refl F2) as (cd3 & A' & F3).
      change (dm_of u AlphaEnd) with (u_endpoint_dm1 u) in A'. change (pl_ends (plane_at pls 1)) with (zlen AE) in A'. rewrite A'. cbn [bind].
      do 2 eexists. split; [reflexivity|]. cbn [set_alpha1 set_alpha0 b_alpha1 b_alpha0 b_ref]. split; [exact U1|]. split; [exact U0|]. split; [reflexivity|exact F3].
    - cbn [app] in F1. destruct (Z.eqb_spec (u_source W D n) 1) as [Es1|Es1].
      + do 2 eexists. subst ce ae. rewrite <- IE0, <- IE1. split; [reflexivity|]. cbn [set_alpha1 set_alpha0 b_alpha1 b_alpha0 b_ref]. split; [exact U1|]. split; [exact U0|]. split; [reflexivity|exact F1].
      + do 2 eexists. rewrite Fh0, Fh1, <- IE0, <- IE1. split; [reflexivity|]. split; [rewrite Fh1, <- IE1; reflexivity|]. split; [rewrite Fh0, <- IE0; reflexivity|]. split; [reflexivity|exact F1]. }
  cbn [bind]. rewrite <- Ex.
  destruct (buffer_next pls D field n buf b' ltac:(lia) Bf) as (buf' & -> & Bf').
  { intros p Hp. destruct (plane_cases p Hp) as [-> | ->]; [exact Bn0|exact Bn1]. }
  { intros Ev. rewrite Br'. apply Br, Ev. }
  cbn [bind]. destruct F2 as (cd3 & Dc & F3). cbn [fst snd dm_of] in Dc. rewrite Dc. cbn [or_err bind].
  destruct F3 as (cd4 & Dc' & F4). cbn [fst snd dm_of] in Dc'. rewrite Dc'. cbn [or_err bind]. rewrite Ex.
  destruct ((y <? H) && (x <? W)) eqn:V.
  - destruct (visible_split x y V) as [Vx Vy].
    pose proof (index_range pls D endsn 0 n ltac:(cbn; lia)) as Ri0. change (pl_ends (plane_at pls 0)) with (zlen AE) in Ri0.
    pose proof (index_range pls D endsn 1 n ltac:(cbn; lia)) as Ri1. change (pl_ends (plane_at pls 1)) with (zlen AE) in Ri1.
    destruct HD as (_ & _ & D2). pose proof (D2 0 n ltac:(cbn; lia)) as Rs0. change (pl_sels (plane_at pls 0)) with (zlen AS / 3) in Rs0.
    pose proof (D2 1 n ltac:(cbn; lia)) as Rs1. change (pl_sels (plane_at pls 1)) with (zlen AS / 3) in Rs1.
    pose proof (u_visible_range W H faces HW HH f x y Hf ltac:(lia) ltac:(lia)) as VR.
    set (q := u_visible_no W H f x y) in *. assert (zlen dst = faces * H * W * (4 * 4)) as LD by exact (proj1 Fl).
    destruct (third _ _ Rs0) as [T1 T2]. destruct (third _ _ Rs1) as [T3 T4]. rewrite unity_alpha_words_ok by lia. cbn [bind]. rewrite unity_alpha_words_ok by lia. cbn [bind]. rewrite idx_ok by lia. cbn [bind].
    destruct HA as (_ & A1 & A2). rewrite write_alpha_ok by (try apply words_znth; auto; lia). cbn [bind].
    set (ab := le 2 _ ++ _). assert (zlen ab = 8) as Lab by (unfold ab; rewrite !zlen_app, !zlen_le by lia; reflexivity).
    rewrite idx_ok by lia. cbn [bind].
    rewrite write_alpha_ok by (try apply words_znth; auto; rewrite ?zlen_put; lia). cbn [bind].
    replace (4 * (q * 4 + 2)) with (4 * (q * 4) + zlen ab) by lia. rewrite put_put by (rewrite ?zlen_app, ?zlen_le; lia).
    eexists. split; [reflexivity|]. split; [f_equal; lia|]. split; [f_equal; lia|]. split; [exact G'|]. split; [exact Bf'|]. split; [exact F4|].
    pose proof (u_fill_visible W H faces 4 HW HH HF ltac:(lia) (u_block W pls D) blockn_len f x y dst Hf ltac:(lia) ltac:(lia) Fl) as K.
    fold n q in K. replace (4 * (q * 4)) with (q * (4 * 4)) by ring.
    unfold u_block at 2 in K. change (plane_nos pls) with [0; 1] in K. cbn [flat_map] in K. rewrite app_nil_r in K.
    change (plane_at pls 0) with ap in K. change (plane_at pls 1) with ap in K. cbn [alpha_plane pl_block] in K.
    unfold ab. rewrite (Z.mul_comm (u_sel D 0 n) 3), (Z.mul_comm (u_sel D 1 n) 3). exact K.
  - eexists. split; [reflexivity|]. split; [f_equal; lia|]. split; [f_equal; lia|]. split; [exact G'|]. split; [exact Bf'|]. split; [exact F4|].
    exact (u_fill_hidden W H faces 4 HW HH HF ltac:(lia) (u_block W pls D) f x y dst Hf Hx Hy V Fl).
Qed.

Lemma unity_dxn_ok cd dst : h_faces (u_header u) = faces -> feeds cd (u_level_symbols W H faces pls [0; 1] D) ->
  zlen dst = faces * H * W * 16 -> unity_unpack_dxn m u cd dst (W * 16) W H = Ok (u_level_blocks W H faces pls D).
Proof.
  intros Ef F L. unfold unity_unpack_dxn. cbv zeta. rewrite Ef.
  destruct (unity_loops_ok W H faces 4 HW HH HF ltac:(lia) HS HZ ltac:(lia) m u_dxn_rel (unity_dxn_block m u) (0, 0, 0, repeat default_elem (Z.to_nat (even_width W)), cd, dst) HM)
    as ([[[[[ce ae] g] buf] cd'] dst'] & E & Q).
  - split; [unfold u_end_index; rewrite value_neg by lia; reflexivity|]. split; [unfold u_end_index; rewrite value_neg by lia; reflexivity|]. split; [|split; [|split; [exact F|]]].
    + intros _ C. unfold u_col in C. rewrite Z.mod_0_l in C by (pose proof (u_cols_bounds W HW); lia). discriminate.
    + apply buffer_start. intros p _. unfold field. destruct (p =? 0); reflexivity.
    + apply u_fill_start; auto; lia.
  - intros f x y st Hf Hx Hy. apply u_dxn_block_ok; auto.
  - change (W * 16) with (W * (4 * 4)). rewrite E. cbn [bind]. f_equal. destruct Q as (_ & _ & _ & _ & _ & Q).
    exact (u_fill_end W H faces 4 HW HH HF ltac:(lia) (u_block W pls D) blockn_len dst' Q).
Qed.
End Dxn.
End Unity.
