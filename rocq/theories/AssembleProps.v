(** C42: decoded tiles land in the right place of the output image. *)

From Coq Require Import ZArith List Lia Bool Permutation.
From Verif Require Import I32 Ints Mem MathModel MathProps GeomModel GeomProofs GeomCover GeomProps AssembleModel.
Import ListNotations.
Local Open Scope Z_scope.

(** ** One axis *)

Lemma quad : forall a b c d a' b' c' d' : Z, a = a' -> b = b' -> c = c' -> d = d' -> (a, b, c, d) = (a', b', c', d').
Proof. intros; subst; reflexivity. Qed.

(** Overlap of [d0, d0 + w) and [r0, r1): where it starts on either side and
    how long it is. *)
Lemma copy_axis_overlap : forall d0 w r0 r1, 0 <= d0 -> 0 <= w -> d0 + w < 2 ^ 31 -> 0 <= r0 <= r1 -> r1 < 2 ^ 31 ->
  Z.max d0 r0 <= Z.min (d0 + w) r1 ->
  exists off1, 0 <= off1 /\
    copy_axis d0 w r0 r1 = (Z.max d0 r0 - d0, Z.max d0 r0 - r0, Z.min (d0 + w) r1 - Z.max d0 r0, off1).
Proof.
  intros d0 w r0 r1 Hd Hw Hs Hr Hr1 Ho. unfold copy_axis.
  rewrite (u32_id (d0 + w)), (u32_id r0), (u32_id r1), (i32_id (r1 - r0)), (u32_id (r1 - r0)) by (unfold in_i32; lia).
  destruct (Z.ltb_spec d0 r0), (Z.leb_spec r1 (d0 + w)).
  - rewrite u32_id by lia. exists 0. split; [lia |]. apply quad; lia.
  - rewrite (u32_id (r0 - d0)), (u32_id (d0 + w - r0)) by lia. rewrite u32_id by lia. rewrite i32_id by (unfold in_i32; lia).
    exists (r1 - r0 - (d0 + w - r0)). split; [lia |]. apply quad; lia.
  - rewrite (i32_id d0), (i32_id (d0 - r0)) by (unfold in_i32; lia). rewrite (u32_id (d0 - r0)), u32_id by lia.
    exists 0. split; [lia |]. apply quad; lia.
  - rewrite (i32_id d0), (i32_id (d0 - r0)), (i32_id (d0 + w)), i32_id by (unfold in_i32; lia).
    exists (r1 - (d0 + w)). split; [lia |]. apply quad; lia.
Qed.

Lemma copy_axis_apart : forall d0 w r0 r1, 0 <= d0 -> 0 <= w -> d0 + w < 2 ^ 31 -> 0 <= r0 <= r1 -> r1 < 2 ^ 31 ->
  Z.min (d0 + w) r1 < Z.max d0 r0 ->
  let '(_, off0, wd, off1) := copy_axis d0 w r0 r1 in off0 < 0 \/ off1 < 0 \/ i32 wd < 0.
Proof.
  intros d0 w r0 r1 Hd Hw Hs Hr Hr1 Ho. unfold copy_axis.
  rewrite (u32_id (d0 + w)), (u32_id r0), (u32_id r1), (i32_id (r1 - r0)), (u32_id (r1 - r0)) by (unfold in_i32; lia).
  assert (N : forall x, - 2 ^ 31 <= x < 0 -> i32 (u32 x) < 0).
  { intros x Hx. replace (i32 (u32 x)) with x; [lia |]. assert (E : u32 x = x + 2 ^ 32) by (unfold u32; symmetry; apply Z.mod_unique with (-1); lia).
    rewrite E. symmetry. rewrite <- (i32_id x) at 2 by (unfold in_i32; lia). apply (i32_eq _ _ 1). lia. }
  destruct (Z.ltb_spec d0 r0), (Z.leb_spec r1 (d0 + w)); [lia | | | lia].
  - right. right. apply N. lia.
  - rewrite (i32_id d0), (i32_id (d0 - r0)) by (unfold in_i32; lia). rewrite (u32_id (d0 - r0)) by lia.
    right. right. apply N. lia.
Qed.

(** ** The copy *)

Lemma row_spec : forall b s n src m a, 0 <= n ->
  for_to 0 n (fun i m => upd m (b + i) (src (s + i))) m a = if (b <=? a) && (a <? b + n) then src (s + (a - b)) else m a.
Proof.
  intros b s n src m a Hn.
  pose (P := fun k (m' : mem) => m' a = if (b <=? a) && (a <? b + k) then src (s + (a - b)) else m a).
  change (P n (for_to 0 n (fun i m => upd m (b + i) (src (s + i))) m)). apply for_ind; [exact Hn | |].
  - unfold P. destruct (Z.leb_spec b a), (Z.ltb_spec a (b + 0)); cbn [andb]; try lia; reflexivity.
  - intros i m' Hi IH. unfold P in *. unfold upd. destruct (Z.eqb_spec a (b + i)) as [E | E].
    + destruct (Z.leb_spec b a), (Z.ltb_spec a (b + (i + 1))); cbn [andb]; try lia. f_equal. lia.
    + rewrite IH. destruct (Z.leb_spec b a), (Z.ltb_spec a (b + i)), (Z.ltb_spec a (b + (i + 1))); cbn [andb]; try lia; reflexivity.
Qed.

Lemma row_end : forall w y x, 0 <= x < w -> forall b n, 0 <= b -> b + n <= w -> 0 <= n -> forall z,
  z * w + b <= y * w + x < z * w + b + n -> y = z.
Proof. intros. nia. Qed.

Lemma copy_rows_spec : forall w stride sx sy os wd hd src dst, 0 <= sx -> 0 <= wd -> sx + wd <= w -> 0 <= hd ->
  forall x y, 0 <= x < w ->
  copy_rows w stride (sx + sy * w) os wd hd src dst (y * w + x) =
  if (sx <=? x) && (x <? sx + wd) && (sy <=? y) && (y <? sy + hd) then src (os + (y - sy) * stride + (x - sx))
  else dst (y * w + x).
Proof.
  intros w stride sx sy os wd hd src dst Hsx Hwd Hw Hhd x y Hx. unfold copy_rows.
  set (f := fun j (m : mem) => for_to 0 wd (fun i m => upd m (sx + sy * w + j * w + i) (src (os + j * stride + i))) m).
  pose (P := fun k (m : mem) => m (y * w + x) =
    if (sx <=? x) && (x <? sx + wd) && (sy <=? y) && (y <? sy + k) then src (os + (y - sy) * stride + (x - sx)) else dst (y * w + x)).
  change (P hd (for_to 0 hd f dst)). apply for_ind; [exact Hhd | |].
  - unfold P. destruct (Z.leb_spec sy y), (Z.ltb_spec y (sy + 0)); try lia; rewrite ?andb_false_r; reflexivity.
  - intros j m Hj IH. unfold P in *. unfold f. rewrite row_spec by lia.
    destruct (Z.leb_spec (sx + sy * w + j * w) (y * w + x)) as [A | A], (Z.ltb_spec (y * w + x) (sx + sy * w + j * w + wd)) as [B | B]; cbn [andb].
    + assert (E : y = sy + j) by (apply (row_end w y x Hx sx wd); lia). subst y.
      destruct (Z.leb_spec sx x); [| lia]. destruct (Z.ltb_spec x (sx + wd)); [| lia].
      destruct (Z.leb_spec sy (sy + j)); [| lia]. destruct (Z.ltb_spec (sy + j) (sy + (j + 1))); [| lia]. cbn [andb].
      f_equal. ring.
    + rewrite IH. destruct (Z.ltb_spec y (sy + j)), (Z.ltb_spec y (sy + (j + 1))); try lia; rewrite ?andb_true_r, ?andb_false_r; try reflexivity.
      assert (y = sy + j) by lia. subst y. destruct (Z.leb_spec sx x), (Z.ltb_spec x (sx + wd)); cbn [andb]; try reflexivity. lia.
    + rewrite IH. destruct (Z.ltb_spec y (sy + j)), (Z.ltb_spec y (sy + (j + 1))); try lia; rewrite ?andb_true_r, ?andb_false_r; try reflexivity.
      assert (y = sy + j) by lia. subst y. destruct (Z.leb_spec sx x), (Z.ltb_spec x (sx + wd)); cbn [andb]; try reflexivity. lia.
    + lia.
Qed.

(** ** One tile *)

(** Spec: the sample at ([x], [y]) of the reduced grid, in the output and in a tile. *)
Definition X0 (o : output) : Z := uint_ceildivpow2 (ox0 o) (factor o).
Definition Y0 (o : output) : Z := uint_ceildivpow2 (oy0 o) (factor o).
Definition out_rect (o : output) : rect := ((X0 o, X0 o + ow o), (Y0 o, Y0 o + oh o)).
Definition tile_rect_of (t : tilecomp) : rect := ((rx0 t, rx1 t), (ry0 t, ry1 t)).
Definition pixel (o : output) (d : mem) (x y : Z) : Z := d ((y - Y0 o) * ow o + (x - X0 o)).
Definition tile_pixel (t : tilecomp) (src : mem) (x y : Z) : Z := src ((y - ry0 t) * stride t + (x - rx0 t)).

(** A usable output component, a decoded tile component, and the two touching. *)
Definition output_ok (o : output) : Prop :=
  0 <= X0 o /\ 0 <= Y0 o /\ 1 <= ow o /\ 1 <= oh o /\ X0 o + ow o < 2 ^ 31 /\ Y0 o + oh o < 2 ^ 31.
Definition tile_ok (t : tilecomp) : Prop :=
  0 <= rx0 t <= rx1 t /\ rx1 t < 2 ^ 31 /\ 0 <= ry0 t <= ry1 t /\ ry1 t < 2 ^ 31 /\ rx1 t - rx0 t <= stride t < 2 ^ 31.
Definition touching (o : output) (t : tilecomp) : Prop :=
  Z.max (X0 o) (rx0 t) <= Z.min (X0 o + ow o) (rx1 t) /\ Z.max (Y0 o) (ry0 t) <= Z.min (Y0 o + oh o) (ry1 t).

Definition before (o : output) (x y : Z) : Z := match odata o with Some d => pixel o d x y | None => 0 end.

Lemma zeroed : forall n m a, 0 <= a < n -> for_to 0 n (fun i m => upd m i 0) m a = 0.
Proof.
  intros n m a Ha. destruct (fill_spec 0 n (fun i => i) (fun _ => 0) (fun i m => upd m i 0) m) as [F _]; [auto | reflexivity |].
  apply F, Ha.
Qed.

Lemma zeroed_out : forall n m a, ~ 0 <= a < n -> for_to 0 n (fun i m => upd m i 0) m a = m a.
Proof.
  intros n m a Ha. destruct (fill_spec 0 n (fun i => i) (fun _ => 0) (fun i m => upd m i 0) m) as [_ F]; [auto | reflexivity |].
  apply F. intros; lia.
Qed.

Lemma index_bound : forall w h x y, 0 <= x < w -> 0 <= y < h -> 0 <= y * w + x < w * h.
Proof. intros. nia. Qed.

(** After the update every output sample inside the tile is the tile's sample
    at the same place; the others are as before, or 0 if there was no buffer.
    What a fresh buffer held does not matter. *)
Theorem c42_update : forall junk o t src, output_ok o -> tile_ok t -> touching o t -> tdata t = Some src ->
  exists d, update_image junk o t = Done (Some d) /\
    forall x y, inside (out_rect o) x y ->
      (inside (tile_rect_of t) x y -> pixel o d x y = tile_pixel t src x y) /\
      (~ inside (tile_rect_of t) x y -> pixel o d x y = before o x y).
Proof.
  intros junk o t src (Hx & Hy & Hw & Hh & Hxw & Hyh) (Rx & Rx1 & Ry & Ry1 & St) [Tx Ty] Es.
  unfold update_image. rewrite Es. fold (X0 o) (Y0 o).
  destruct (Z.ltb_spec (rx0 t) 0); [lia |]. destruct (Z.ltb_spec (rx1 t) 0); [lia |]. cbn [orb].
  destruct (copy_axis_overlap (X0 o) (ow o) (rx0 t) (rx1 t)) as (ux & Ux & ->); try lia.
  destruct (copy_axis_overlap (Y0 o) (oh o) (ry0 t) (ry1 t)) as (uy & Uy & ->); try lia.
  set (ax := Z.max (X0 o) (rx0 t)) in *. set (bx := Z.min (X0 o + ow o) (rx1 t)) in *.
  set (ay := Z.max (Y0 o) (ry0 t)) in *. set (By := Z.min (Y0 o + oh o) (ry1 t)) in *.
  destruct (Z.ltb_spec (ax - rx0 t) 0); [lia |]. destruct (Z.ltb_spec (ay - ry0 t) 0); [lia |].
  destruct (Z.ltb_spec ux 0); [lia |]. destruct (Z.ltb_spec uy 0); [lia |]. cbn [orb].
  rewrite (i32_id (bx - ax)), (i32_id (By - ay)) by (unfold in_i32; lia).
  destruct (Z.ltb_spec (bx - ax) 0); [lia |]. destruct (Z.ltb_spec (By - ay) 0); [lia |]. cbn [orb].
  assert (Q : forall a b, 0 <= a < 2 ^ 31 -> 0 <= b < 2 ^ 31 -> 0 <= a * b < 2 ^ 62) by (clear; intros; nia).
  rewrite (u64_id ((ay - ry0 t) * stride t)) by (pose proof (Q (ay - ry0 t) (stride t)); lia).
  rewrite (u64_id (ax - rx0 t + (ay - ry0 t) * stride t)) by (pose proof (Q (ay - ry0 t) (stride t)); lia).
  rewrite (u64_id ((ay - Y0 o) * ow o)) by (pose proof (Q (ay - Y0 o) (ow o)); lia).
  rewrite (u64_id (ax - X0 o + (ay - Y0 o) * ow o)) by (pose proof (Q (ay - Y0 o) (ow o)); lia).
  set (os := ax - rx0 t + (ay - ry0 t) * stride t).
  assert (C : forall d, exists d', copy_rows (ow o) (stride t) (ax - X0 o + (ay - Y0 o) * ow o) os (bx - ax) (By - ay) src d = d' /\
    forall x y, inside (out_rect o) x y ->
      (inside (tile_rect_of t) x y -> pixel o d' x y = tile_pixel t src x y) /\
      (~ inside (tile_rect_of t) x y -> pixel o d' x y = pixel o d x y)).
  { intros d. eexists. split; [reflexivity |]. intros x y [Ix Iy]. unfold inside, within, out_rect, tile_rect_of in *. cbn [fst snd] in *.
    unfold pixel. rewrite copy_rows_spec by lia.
    destruct (Z.leb_spec (ax - X0 o) (x - X0 o)), (Z.ltb_spec (x - X0 o) (ax - X0 o + (bx - ax))),
      (Z.leb_spec (ay - Y0 o) (y - Y0 o)), (Z.ltb_spec (y - Y0 o) (ay - Y0 o + (By - ay))); cbn [andb];
      (split; intros N; try (exfalso; lia); try reflexivity).
    unfold tile_pixel, os. f_equal. ring. }
  unfold before. destruct (odata o) as [d |] eqn:Ed.
  - destruct (C d) as (d' & -> & S). exists d'. split; [reflexivity | exact S].
  - destruct ((os =? 0) && (ax - X0 o + (ay - Y0 o) * ow o =? 0) && (stride t =? ow o) && (bx - ax =? ow o) && (By - ay =? oh o)) eqn:B.
    + apply andb_prop in B. destruct B as [B B5]. apply andb_prop in B. destruct B as [B B4]. apply andb_prop in B. destruct B as [B B3].
      apply andb_prop in B. destruct B as [B1 B2]. apply Z.eqb_eq in B1, B2, B3, B4, B5.
      assert (M : 0 <= (ay - ry0 t) * stride t) by (pose proof (Q (ay - ry0 t) (stride t)); lia).
      assert (M1 : ax = rx0 t) by (unfold os in B1; lia).
      assert (M2 : ay = ry0 t). { unfold os in B1. assert (Z0 : (ay - ry0 t) * stride t = 0) by lia. apply Z.mul_eq_0 in Z0. lia. }
      exists src. split; [reflexivity |]. intros x y [Ix Iy]. unfold inside, within, out_rect, tile_rect_of in *. cbn [fst snd] in *.
      split; intros N; [| exfalso; lia]. unfold pixel, tile_pixel. rewrite B3.
      replace (ry0 t) with (Y0 o) by lia. replace (rx0 t) with (X0 o) by lia. reflexivity.
    + destruct (Z.eqb_spec (oh o) 0); [lia |]. cbn [orb].
      assert (M : 0 <= ow o * oh o <= (2 ^ 31 - 1) * (2 ^ 31 - 1)) by (clear - Hw Hh Hxw Hyh Hx Hy; nia).
      destruct (Z.ltb_spec ((2 ^ 64 - 1) / oh o) (ow o)) as [F | F].
      { exfalso. assert (2 ^ 33 - 1 <= (2 ^ 64 - 1) / oh o); [| lia]. apply Z.div_le_lower_bound; lia. }
      rewrite u64_id by lia. destruct (Z.ltb_spec ((2 ^ 64 - 1) / 4) (ow o * oh o)) as [F2 | F2].
      { exfalso. change ((2 ^ 64 - 1) / 4) with (2 ^ 62 - 1) in F2. lia. }
      cbn [orb]. match goal with |- context [copy_rows _ _ _ _ _ _ _ ?z] => destruct (C z) as (d' & -> & S) end.
      exists d'. split; [reflexivity |]. intros x y I. destruct (S x y I) as [S1 S2]. split; [exact S1 |]. intros N. rewrite S2 by exact N.
      destruct I as [Ix Iy]. unfold inside, within, out_rect, tile_rect_of in *. cbn [fst snd] in *.
      destruct (Z.eqb_spec (ow o) (bx - ax)), (Z.eqb_spec (oh o) (By - ay)); cbn [negb orb];
        [exfalso; lia | | |]; unfold pixel; apply zeroed; apply index_bound; lia.
Qed.

(** Nothing outside the output buffer is written. *)
Theorem c42_in_bounds : forall junk o t d d', output_ok o -> tile_ok t -> touching o t -> odata o = Some d ->
  update_image junk o t = Done (Some d') -> forall a, ~ 0 <= a < ow o * oh o -> d' a = d a.
Proof.
  intros junk o t d d' (Hx & Hy & Hw & Hh & Hxw & Hyh) (Rx & Rx1 & Ry & Ry1 & St) [Tx Ty] Ed E a Ha. unfold update_image in E.
  destruct (tdata t) as [src |]; [| rewrite Ed in E; congruence].
  fold (X0 o) (Y0 o) in E.
  destruct (Z.ltb_spec (rx0 t) 0); [lia |]. destruct (Z.ltb_spec (rx1 t) 0); [lia |]. cbn [orb] in E.
  destruct (copy_axis_overlap (X0 o) (ow o) (rx0 t) (rx1 t)) as (ux & Ux & Ex); try lia. rewrite Ex in E.
  destruct (copy_axis_overlap (Y0 o) (oh o) (ry0 t) (ry1 t)) as (uy & Uy & Ey); try lia. rewrite Ey in E. clear Ex Ey.
  set (ax := Z.max (X0 o) (rx0 t)) in *. set (bx := Z.min (X0 o + ow o) (rx1 t)) in *.
  set (ay := Z.max (Y0 o) (ry0 t)) in *. set (By := Z.min (Y0 o + oh o) (ry1 t)) in *.
  destruct ((_ <? 0) || _ || _ || _); [discriminate |]. destruct ((_ <? 0) || _); [discriminate |]. rewrite Ed in E.
  assert (Q : 0 <= (ay - Y0 o) * ow o < 2 ^ 62) by (assert (0 <= ay - Y0 o < 2 ^ 31) by lia; clear - H1 Hw Hxw Hx; nia).
  rewrite (u64_id ((ay - Y0 o) * ow o)), (u64_id (ax - X0 o + (ay - Y0 o) * ow o)) in E by lia.
  assert (Ea : a = (a / ow o) * ow o + a mod ow o) by (rewrite (Z.div_mod a (ow o)) at 1; lia).
  assert (Hm : 0 <= a mod ow o < ow o) by (apply Z.mod_pos_bound; lia).
  assert (Eq : d' = copy_rows (ow o) (stride t) (ax - X0 o + (ay - Y0 o) * ow o)
                 (u64 (ax - rx0 t + u64 ((ay - ry0 t) * stride t))) (bx - ax) (By - ay) src d) by congruence.
  rewrite Eq, Ea. rewrite copy_rows_spec by lia.
  destruct (Z.leb_spec (ay - Y0 o) (a / ow o)), (Z.ltb_spec (a / ow o) (ay - Y0 o + (By - ay))); rewrite ?andb_false_r; try reflexivity.
  exfalso. apply Ha. rewrite Ea. apply index_bound; lia.
Qed.

(** A tile apart from the output region is an error, not a stray copy. *)
Theorem c42_apart : forall junk o t src, output_ok o -> tile_ok t -> ~ touching o t -> tdata t = Some src ->
  update_image junk o t = Fail.
Proof.
  intros junk o t src (Hx & Hy & Hw & Hh & Hxw & Hyh) (Rx & Rx1 & Ry & Ry1 & St) T Es.
  unfold update_image. rewrite Es. fold (X0 o) (Y0 o).
  destruct (Z.ltb_spec (rx0 t) 0); [lia |]. destruct (Z.ltb_spec (rx1 t) 0); [lia |]. cbn [orb].
  pose proof (copy_axis_apart (X0 o) (ow o) (rx0 t) (rx1 t)) as A. pose proof (copy_axis_apart (Y0 o) (oh o) (ry0 t) (ry1 t)) as B.
  destruct (copy_axis (X0 o) (ow o) (rx0 t) (rx1 t)) as [[[sx ox] wd] ux].
  destruct (copy_axis (Y0 o) (oh o) (ry0 t) (ry1 t)) as [[[sy oy] hd] uy].
  destruct (Z_lt_le_dec (Z.min (X0 o + ow o) (rx1 t)) (Z.max (X0 o) (rx0 t))) as [L | L].
  - specialize (A ltac:(lia) ltac:(lia) ltac:(lia) ltac:(lia) ltac:(lia) L).
    destruct (Z.ltb_spec ox 0); [reflexivity |]. destruct (Z.ltb_spec ux 0); [rewrite !orb_true_r; reflexivity |].
    destruct (Z.ltb_spec (i32 wd) 0); [| lia]. destruct (_ || _); reflexivity.
  - destruct (Z_lt_le_dec (Z.min (Y0 o + oh o) (ry1 t)) (Z.max (Y0 o) (ry0 t))) as [L2 | L2]; [| exfalso; apply T; split; assumption].
    specialize (B ltac:(lia) ltac:(lia) ltac:(lia) ltac:(lia) ltac:(lia) L2).
    destruct (Z.ltb_spec oy 0); [rewrite !orb_true_r; reflexivity |]. destruct (Z.ltb_spec uy 0); [rewrite !orb_true_r; reflexivity |].
    destruct (Z.ltb_spec (i32 hd) 0); [| lia]. rewrite !orb_true_r. destruct (_ || _); reflexivity.
Qed.

(** ** All tiles *)

Definition with_data (o : output) (d : option mem) : output := mkOutput (ox0 o) (oy0 o) (factor o) (ow o) (oh o) d.

(** Tiles with disjoint extents, in any order: each output sample is that of
    the tile it lies in, and is otherwise untouched. *)
Theorem c42_tiles : forall ts o, output_ok o ->
  Forall (fun jt => tile_ok (snd jt) /\ touching o (snd jt) /\ tdata (snd jt) <> None) ts ->
  ForallOrdPairs (fun a b => forall x y, inside (tile_rect_of (snd a)) x y -> ~ inside (tile_rect_of (snd b)) x y) ts ->
  ts <> [] ->
  exists d, assemble o ts = Done (Some d) /\
    forall x y, inside (out_rect o) x y ->
      (forall jt src, In jt ts -> tdata (snd jt) = Some src -> inside (tile_rect_of (snd jt)) x y -> pixel o d x y = tile_pixel (snd jt) src x y) /\
      ((forall jt, In jt ts -> ~ inside (tile_rect_of (snd jt)) x y) -> pixel o d x y = before o x y).
Proof.
  assert (G : forall ts o, output_ok o ->
    Forall (fun jt => tile_ok (snd jt) /\ touching o (snd jt) /\ tdata (snd jt) <> None) ts ->
    ForallOrdPairs (fun a b => forall x y, inside (tile_rect_of (snd a)) x y -> ~ inside (tile_rect_of (snd b)) x y) ts ->
    exists d, assemble o ts = Done d /\ (ts <> [] -> d <> None) /\ (ts = [] -> d = odata o) /\
    forall x y, inside (out_rect o) x y ->
      (forall jt src, In jt ts -> tdata (snd jt) = Some src -> inside (tile_rect_of (snd jt)) x y -> before (with_data o d) x y = tile_pixel (snd jt) src x y) /\
      ((forall jt, In jt ts -> ~ inside (tile_rect_of (snd jt)) x y) -> before (with_data o d) x y = before o x y)).
  { induction ts as [| [junk t] ts IH]; intros o Ho F P; cbn [assemble].
    - exists (odata o). split; [reflexivity |]. split; [congruence |]. split; [reflexivity |]. intros x y I. split; [intros jt src [] |].
      intros _. destruct o; reflexivity.
    - inversion F as [| jt' ts' (Ht & Tt & Dt) F' E']; subst. inversion P as [| jt'' ts'' P1 P2 E'']; subst. cbn [snd] in *.
      destruct (tdata t) as [src |] eqn:Es; [| congruence].
      destruct (c42_update junk o t src Ho Ht Tt Es) as (d & -> & S). fold (with_data o (Some d)).
      destruct (IH (with_data o (Some d)) Ho F' P2) as (d2 & -> & N & N2 & S2). exists d2. split; [reflexivity |].
      split. { intros _. destruct ts; [rewrite N2 by reflexivity; discriminate | apply N; discriminate]. }
      split; [discriminate |]. intros x y I. destruct (S x y I) as [A B]. destruct (S2 x y I) as [A2 B2]. split.
      + intros jt src' [<- | Hin] Es' In'.
        * cbn [snd] in *. rewrite Es in Es'. assert (src' = src) by congruence. subst src'.
          change (with_data (with_data o (Some d)) d2) with (with_data o d2) in B2. rewrite B2.
          -- exact (A In').
          -- intros jt Hjt. rewrite Forall_forall in P1. exact (P1 jt Hjt x y In').
        * exact (A2 jt src' Hin Es' In').
      + intros Nin. change (with_data (with_data o (Some d)) d2) with (with_data o d2) in B2. rewrite B2.
        * apply B. exact (Nin (junk, t) (or_introl eq_refl)).
        * intros jt Hjt. apply Nin. right. exact Hjt. }
  intros ts o Ho F P Ne. destruct (G ts o Ho F P) as (d & E & N & _ & S). specialize (N Ne). destruct d as [d |]; [| congruence].
  exists d. split; [exact E |]. exact S.
Qed.

(** ** The whole image *)

(** Tile [no] of a component subsampled by ([dx], [dy]) and reduced by 2^[f],
    holding the samples [img no]. *)
Definition reduced_rect (ix iy tx ty : Z * Z) (tw no dx dy f : Z) (r : rect) : Prop :=
  exists t c, tile_rect ix iy tx ty tw no = Some t /\ comp_rect t dx dy = Some c /\ r = (res_axis (fst c) f, res_axis (snd c) f).

Lemma reduced_axis : forall c f, extent c -> 0 <= f <= 32 -> forall x,
  within (res_axis c f) x <-> within c (x * 2 ^ f).
Proof.
  intros c f Hc Hf x. destruct (res_axis_spec c f Hc Hf) as (A & B & _).
  assert (0 < 2 ^ f) by (apply Z.pow_pos_nonneg; lia). unfold within, ceil_of in *.
  set (p := 2 ^ f) in *. clearbody p. set (u := fst (res_axis c f)) in *. set (v := snd (res_axis c f)) in *. clearbody u v.
  clear - A B H. split; intros; nia.
Qed.

Lemma reduced_component : forall ix iy tx ty tw th no dx dy f, header ix iy tx ty tw th -> snd ix < 2 ^ 31 -> snd iy < 2 ^ 31 ->
  0 <= no < tw * th -> 1 <= dx <= 255 -> 1 <= dy <= 255 -> 0 <= f <= 32 ->
  exists t r, tile_rect ix iy tx ty tw no = Some t /\ reduced_rect ix iy tx ty tw no dx dy f r /\
    extent (fst r) /\ extent (snd r) /\
    forall x y, inside r x y <-> inside t (x * 2 ^ f * dx) (y * 2 ^ f * dy).
Proof.
  intros ix iy tx ty tw th no dx dy f H Hx Hy Hno Hdx Hdy Hf.
  destruct (c28_component _ _ _ _ _ _ no dx dy H Hx Hy Hno Hdx Hdy) as (t & c & Et & Ec & Q).
  destruct (c28_tiles_exist _ _ _ _ _ _ no H Hx Hy Hno) as (t' & Et' & Lx & Ly & I). rewrite Et in Et'. apply some_inj in Et'. subst t'.
  assert (Ex : extent (fst c) /\ extent (snd c)).
  { destruct H as (A & B & C & D & _). unfold is_u32 in *. destruct t as [[a b] [u v]]. cbn [fst snd] in *.
    assert (I1 : inside (ix, iy) a u) by (apply I; split; unfold within; cbn; lia).
    assert (I2 : inside (ix, iy) (b - 1) (v - 1)) by (apply I; split; unfold within; cbn; lia).
    unfold inside, within in I1, I2. cbn [fst snd] in I1, I2.
    unfold comp_rect in Ec. cbn [fst snd] in Ec.
    assert (R : forall lo hi d k, 0 <= lo < hi -> hi < 2 ^ 31 -> 1 <= d <= 255 -> comp_axis (lo, hi) d = Some k -> extent k).
    { clear. intros lo hi d k Hl Hh Hd E. unfold comp_axis in E. cbn [fst snd] in E. rewrite i32_id in E by (unfold in_i32; lia).
      destruct (c29_int_ceildiv lo d ltac:(lia) ltac:(lia)) as (p & Ep & P).
      destruct (c29_int_ceildiv hi d ltac:(lia) ltac:(lia)) as (q & Eq & Q). rewrite Ep, Eq in E. apply some_inj in E. subst k.
      unfold extent. cbn [fst snd]. pose proof (ceil_mono lo hi d p q ltac:(lia) ltac:(lia) P Q).
      pose proof (ceil_bound31 lo d p ltac:(lia) ltac:(lia) P). pose proof (ceil_bound31 hi d q ltac:(lia) ltac:(lia) Q). lia. }
    destruct (comp_axis (a, b) dx) as [p |] eqn:Ep; [| discriminate]. destruct (comp_axis (u, v) dy) as [q |] eqn:Eq; [| discriminate].
    apply some_inj in Ec. subst c. cbn [fst snd]. split; [apply (R a b dx) | apply (R u v dy)]; try assumption; lia. }
  destruct Ex as [Ex Ey]. exists t, (res_axis (fst c) f, res_axis (snd c) f). split; [exact Et |].
  split; [exists t, c; auto |]. cbn [fst snd]. split; [apply res_axis_spec; assumption |]. split; [apply res_axis_spec; assumption |].
  intros x y. rewrite <- Q. unfold inside. cbn [fst snd]. rewrite !reduced_axis by assumption. reflexivity.
Qed.

Definition sub (c c' : Z * Z) : Prop := fst c' <= fst c /\ snd c <= snd c'.

Lemma comp_axis_ceil : forall lo hi d k, 0 <= lo < 2 ^ 31 -> 0 <= hi < 2 ^ 31 -> 1 <= d <= 255 -> comp_axis (lo, hi) d = Some k ->
  ceil_of lo d (fst k) /\ ceil_of hi d (snd k).
Proof.
  intros lo hi d k Hl Hh Hd E. unfold comp_axis in E. cbn [fst snd] in E. rewrite i32_id in E by (unfold in_i32; lia).
  destruct (c29_int_ceildiv lo d Hl ltac:(lia)) as (p & Ep & P).
  destruct (c29_int_ceildiv hi d Hh ltac:(lia)) as (q & Eq & Q). rewrite Ep, Eq in E. apply some_inj in E. subst k.
  split; assumption.
Qed.

Lemma axis_sub : forall e e' d f c c', 0 <= fst e' <= fst e -> fst e < snd e <= snd e' -> snd e' < 2 ^ 31 -> 1 <= d <= 255 -> 0 <= f <= 32 ->
  comp_axis e d = Some c -> comp_axis e' d = Some c' ->
  extent c /\ extent c' /\ sub (res_axis c f) (res_axis c' f).
Proof.
  intros [a b] [a' b'] d f c c' H1 H2 H3 Hd Hf E E'. cbn [fst snd] in *.
  destruct (comp_axis_ceil a b d c ltac:(lia) ltac:(lia) Hd E) as [C1 C2].
  destruct (comp_axis_ceil a' b' d c' ltac:(lia) ltac:(lia) Hd E') as [D1 D2].
  pose proof (ceil_mono a b d _ _ ltac:(lia) ltac:(lia) C1 C2). pose proof (ceil_mono a' b' d _ _ ltac:(lia) ltac:(lia) D1 D2).
  pose proof (ceil_mono a' a d _ _ ltac:(lia) ltac:(lia) D1 C1). pose proof (ceil_mono b b' d _ _ ltac:(lia) ltac:(lia) C2 D2).
  pose proof (ceil_bound31 a' d _ ltac:(lia) ltac:(lia) D1). pose proof (ceil_bound31 b' d _ ltac:(lia) ltac:(lia) D2).
  assert (X : extent c) by (unfold extent; lia). assert (X' : extent c') by (unfold extent; lia).
  split; [exact X |]. split; [exact X' |].
  destruct (res_axis_spec c f X Hf) as (R1 & R2 & _). destruct (res_axis_spec c' f X' Hf) as (S1 & S2 & _).
  assert (0 < 2 ^ f) by (apply Z.pow_pos_nonneg; lia).
  split; [apply (ceil_mono (fst c') (fst c) (2 ^ f)) | apply (ceil_mono (snd c) (snd c') (2 ^ f))]; try assumption; lia.
Qed.

Lemma forall_ord_pairs : forall {A} (R : A -> A -> Prop) l, NoDup l ->
  (forall a b, In a l -> In b l -> a <> b -> R a b) -> ForallOrdPairs R l.
Proof.
  intros A R l N. induction N as [| a l Ha N IH]; intros H; constructor.
  - apply Forall_forall. intros b Hb. apply H; [left; reflexivity | right; exact Hb | intros ->; contradiction].
  - apply IH. intros a' b' Ha' Hb'. apply H; right; assumption.
Qed.

(** Given tiles [ts] that are all the tiles of the image, each once and in any
    order, decoded at reduction [f]: every sample of the output is the sample
    at the same place of the one tile that contains it. *)
Theorem c42_image : forall ix iy tx ty tw th dx dy f o c (ts : list (Z * (mem * tilecomp))),
  header ix iy tx ty tw th -> snd ix < 2 ^ 31 -> snd iy < 2 ^ 31 -> 1 <= dx <= 255 -> 1 <= dy <= 255 -> 0 <= f <= 32 ->
  comp_rect (ix, iy) dx dy = Some c -> out_rect o = (res_axis (fst c) f, res_axis (snd c) f) -> 1 <= ow o -> 1 <= oh o ->
  Permutation (map fst ts) (upto (tw * th)) ->
  Forall (fun nt => let t := snd (snd nt) in reduced_rect ix iy tx ty tw (fst nt) dx dy f (tile_rect_of t) /\
    rx1 t - rx0 t <= stride t < 2 ^ 31 /\ tdata t <> None) ts ->
  exists d, assemble o (map snd ts) = Done (Some d) /\
    forall x y, inside (out_rect o) x y -> exists no junk t src r,
      In (no, (junk, t)) ts /\ tdata t = Some src /\ tile_rect ix iy tx ty tw no = Some r /\
      inside r (x * 2 ^ f * dx) (y * 2 ^ f * dy) /\ pixel o d x y = tile_pixel t src x y.
Proof.
  intros ix iy tx ty tw th dx dy f o c ts H Hx Hy Hdx Hdy Hf Ec Eo Hw Hh P F.
  assert (U : forall n, In n (map fst ts) <-> 0 <= n < tw * th).
  { intros n. split; intros I.
    - apply (Permutation_in n P) in I. unfold upto in I. apply in_map_iff in I. destruct I as (k & <- & Hk). apply in_seq in Hk. lia.
    - apply (Permutation_in n (Permutation_sym P)). unfold upto. apply in_map_iff. exists (Z.to_nat n). split; [lia |]. apply in_seq. lia. }
  assert (Nd : NoDup (map fst ts)).
  { apply (Permutation_NoDup (Permutation_sym P)). unfold upto. apply FinFun.Injective_map_NoDup; [| apply seq_NoDup].
    intros a b. apply Nat2Z.inj. }
  pose proof H as (A1 & A2 & A3 & A4 & A5 & A6 & A7 & A8 & A9). unfold is_u32 in *.
  destruct (header_axes _ _ _ _ _ _ H) as (TW & TH & _ & Ax & Ay).
  apply siz_axis_spec in Ax; try assumption. apply siz_axis_spec in Ay; try assumption.
  destruct Ax as (_ & Ax & _), Ay as (_ & Ay & _).
  unfold comp_rect in Ec. cbn [fst snd] in Ec.
  destruct (comp_axis ix dx) as [cx |] eqn:Ecx; [| discriminate]. destruct (comp_axis iy dy) as [cy |] eqn:Ecy; [| discriminate].
  apply some_inj in Ec. subst c. cbn [fst snd] in Eo.
  destruct ix as [ix0 ix1], iy as [iy0 iy1]. cbn [fst snd] in *.
  destruct (axis_sub (ix0, ix1) (ix0, ix1) dx f cx cx) as (Xx & _ & _); cbn [fst snd]; try assumption; try lia.
  destruct (axis_sub (iy0, iy1) (iy0, iy1) dy f cy cy) as (Xy & _ & _); cbn [fst snd]; try assumption; try lia.
  destruct (res_axis_spec cx f Xx Hf) as (_ & _ & Rx). destruct (res_axis_spec cy f Xy Hf) as (_ & _ & Ry).
  unfold out_rect in Eo. assert (Eox : (X0 o, X0 o + ow o) = res_axis cx f) by congruence.
  assert (Eoy : (Y0 o, Y0 o + oh o) = res_axis cy f) by congruence.
  assert (Ho : output_ok o).
  { unfold output_ok. rewrite <- Eox in Rx. rewrite <- Eoy in Ry. unfold extent in *. cbn [fst snd] in *. lia. }
  (* facts about each tile *)
  assert (T : forall n jt, In (n, jt) ts -> tile_ok (snd jt) /\ touching o (snd jt) /\ tdata (snd jt) <> None /\
    exists r, tile_rect (ix0, ix1) (iy0, iy1) tx ty tw n = Some r /\
      forall x y, inside (tile_rect_of (snd jt)) x y <-> inside r (x * 2 ^ f * dx) (y * 2 ^ f * dy)).
  { intros n jt I. rewrite Forall_forall in F. destruct (F _ I) as (R & S & D). cbn [fst snd] in *.
    assert (Hn : 0 <= n < tw * th) by (apply U; apply in_map_iff; exists (n, jt); auto).
    destruct (reduced_component _ _ _ _ _ _ n dx dy f H Hx Hy Hn Hdx Hdy Hf) as (r & r' & Er & R' & E1 & E2 & Q).
    destruct R as (r1 & c1 & Er1 & Ec1 & Et). destruct R' as (r2 & c2 & Er2 & Ec2 & Et').
    rewrite Er in Er1, Er2. apply some_inj in Er1, Er2. subst r1 r2. rewrite Ec1 in Ec2. apply some_inj in Ec2. subst c2.
    rewrite <- Et in Et'. subst r'.
    destruct (c28_tiles_exist _ _ _ _ _ _ n H Hx Hy Hn) as (r3 & Er3 & Lx & Ly & In3).
    rewrite Er in Er3. apply some_inj in Er3. subst r3. destruct r as [[a b] [u v]]. cbn [fst snd] in *.
    assert (I1 : inside ((ix0, ix1), (iy0, iy1)) a u) by (apply In3; split; unfold within; cbn; lia).
    assert (I2 : inside ((ix0, ix1), (iy0, iy1)) (b - 1) (v - 1)) by (apply In3; split; unfold within; cbn; lia).
    unfold inside, within in I1, I2. cbn [fst snd] in I1, I2.
    unfold comp_rect in Ec1. cbn [fst snd] in Ec1.
    destruct (comp_axis (a, b) dx) as [kx |] eqn:Ekx; [| discriminate]. destruct (comp_axis (u, v) dy) as [ky |] eqn:Eky; [| discriminate].
    apply some_inj in Ec1. subst c1. cbn [fst snd] in Et.
    destruct (axis_sub (a, b) (ix0, ix1) dx f kx cx) as (_ & _ & Sx); cbn [fst snd]; try assumption; try lia.
    destruct (axis_sub (u, v) (iy0, iy1) dy f ky cy) as (_ & _ & Sy); cbn [fst snd]; try assumption; try lia.
    rewrite <- Eox in Sx. rewrite <- Eoy in Sy. unfold tile_rect_of in *. rewrite Et in E1, E2. cbn [fst snd] in E1, E2.
    assert (Etx : res_axis kx f = (rx0 (snd jt), rx1 (snd jt))) by congruence.
    assert (Ety : res_axis ky f = (ry0 (snd jt), ry1 (snd jt))) by congruence.
    rewrite Etx in Sx, E1. rewrite Ety in Sy, E2. unfold sub, extent in *. cbn [fst snd] in *.
    split; [unfold tile_ok; lia |]. split; [unfold touching; lia |]. split; [exact D |].
    exists ((a, b), (u, v)). split; [exact Er | exact Q]. }
  destruct (c42_tiles (map snd ts) o Ho) as (d & E & S).
  - apply Forall_forall. intros jt I. apply in_map_iff in I. destruct I as ([n jt'] & <- & I). cbn [snd].
    destruct (T n jt' I) as (B1 & B2 & B3 & _). auto.
  - assert (O : ForallOrdPairs (fun p q : Z * (mem * tilecomp) => forall x y,
      inside (tile_rect_of (snd (snd p))) x y -> ~ inside (tile_rect_of (snd (snd q))) x y) ts).
    { apply forall_ord_pairs.
      - apply NoDup_map_inv with (f := fst). exact Nd.
      - intros [n jt] [n' jt'] I I' Ne x y In1 In2. cbn [snd] in *.
        destruct (T _ _ I) as (_ & _ & _ & r & Er & Q). destruct (T _ _ I') as (_ & _ & _ & r' & Er' & Q').
        apply Q in In1. apply Q' in In2.
        assert (Hn : 0 <= n < tw * th) by (apply U; apply in_map_iff; exists (n, jt); auto).
        assert (Hn' : 0 <= n' < tw * th) by (apply U; apply in_map_iff; exists (n', jt'); auto).
        destruct (c28_tiles_exist _ _ _ _ _ _ n H Hx Hy Hn) as (r3 & Er3 & _ & _ & In3).
        rewrite Er in Er3. apply some_inj in Er3. subst r3.
        destruct (c28_partition _ _ _ _ _ _ _ _ H Hx Hy (In3 _ _ In1)) as (k & _ & Uk).
        assert (n = n') by (rewrite <- (Uk n), <- (Uk n'); [reflexivity | split; [exact Hn' | exists r'; auto] | split; [exact Hn | exists r; auto]]).
        subst n'. apply Ne. f_equal.
        clear - Nd I I'. revert Nd I I'. induction ts as [| [m b] l IH]; intros Nd I I'; [destruct I |].
        cbn [map fst] in Nd. inversion Nd as [| m' l' Hm Nd' Eq]; subst. destruct I as [I | I], I' as [I' | I'].
        + congruence.
        + exfalso. apply Hm. apply in_map_iff. exists (n, jt'). split; [cbn; congruence | exact I'].
        + exfalso. apply Hm. apply in_map_iff. exists (n, jt). split; [cbn; congruence | exact I].
        + apply IH; assumption. }
    clear - O. induction O as [| p l F O IH]; cbn [map]; constructor; [| exact IH].
    rewrite Forall_forall in *. intros q I. apply in_map_iff in I. destruct I as (q' & <- & I). apply F, I.
  - intros N. apply map_eq_nil in N. subst ts. cbn [map] in U. assert (K : In 0 []) by (apply U; split; [lia |]; clear - TW TH; nia). destruct K.
  - exists d. split; [exact E |]. intros x y I. destruct (S x y I) as [S1 _]. unfold out_rect in I. rewrite Eo in I. destruct I as [Ix Iy].
    cbn [fst snd] in Ix, Iy. rewrite (reduced_axis cx f Xx Hf) in Ix. rewrite (reduced_axis cy f Xy Hf) in Iy.
    assert (Ip : inside ((ix0, ix1), (iy0, iy1)) (x * 2 ^ f * dx) (y * 2 ^ f * dy)).
    { destruct (comp_axis_ceil ix0 ix1 dx cx ltac:(lia) ltac:(lia) Hdx Ecx) as [C1 C2].
      destruct (comp_axis_ceil iy0 iy1 dy cy ltac:(lia) ltac:(lia) Hdy Ecy) as [C3 C4].
      unfold inside, within, ceil_of in *. cbn [fst snd]. set (p := x * 2 ^ f) in *. set (q := y * 2 ^ f) in *. clearbody p q.
      clear - C1 C2 C3 C4 Ix Iy Hdx Hdy. split; split; nia. }
    destruct (c28_partition _ _ _ _ _ _ _ _ H Hx Hy Ip) as (n & (Hn & r & Er & Ir) & _).
    apply U in Hn. apply in_map_iff in Hn. destruct Hn as ([n' [junk t]] & En & Hin). cbn [fst] in En. subst n'.
    destruct (T _ _ Hin) as (_ & _ & D & r' & Er' & Q). rewrite Er in Er'. apply some_inj in Er'. subst r'. cbn [snd] in *.
    destruct (tdata t) as [src |] eqn:Es; [| congruence]. exists n, junk, t, src, r. repeat (split; [assumption || reflexivity |]).
    apply (S1 (junk, t) src); [apply in_map_iff; exists (n, (junk, t)); auto | exact Es | apply Q, Ir].
Qed.

Example c42_example :
  let o := mkOutput 3 0 1 4 2 None in
  let t1 := mkTile 2 4 0 2 2 (Some (fun a => 10 + a)) in let t2 := mkTile 4 7 0 2 3 (Some (fun a => 20 + a)) in
  match assemble o [(fun _ => 99, t2); (fun _ => 99, t1)] with
  | Done (Some d) => map d [0; 1; 2; 3; 4; 5; 6; 7] = [10; 11; 20; 21; 12; 13; 23; 24]
  | _ => False
  end.
Proof. vm_compute. reflexivity. Qed.

Print Assumptions c42_update.
Print Assumptions c42_in_bounds.
Print Assumptions c42_apart.
Print Assumptions c42_tiles.
Print Assumptions c42_image.
