(** Property C66: the area to decode, the tiles it takes and the size of the
    output image. *)

From Coq Require Import ZArith List Bool Arith Lia ZifyNat.
From Verif Require TileProofs.
From Verif Require Import I32 Ints MathModel MathProps GeomModel GeomProofs GeomCover GeomProps AssembleModel AssembleProps HdrModel HdrSpec CodecModel CodecProofs CodecTiles RegionModel RegionAxis.
Import ListNotations.
Local Open Scope Z_scope.
Ltac Zify.zify_post_hook ::= idtac.

Definition coords (ask : rect) : Prop := in_i32 (fst (fst ask)) /\ in_i32 (snd (fst ask)) /\ in_i32 (fst (snd ask)) /\ in_i32 (snd (snd ask)).
Definition not_empty (r : rect) : Prop := fst (fst r) < snd (fst r) /\ fst (snd r) < snd (snd r).
(** Nothing asked for: the whole image. *)
Definition nothing : rect := ((0, 0), (0, 0)).

Lemma selecting : forall s tw th ask, framed s tw th -> coords ask -> ask <> nothing ->
  let '((ax0, ax1), (ay0, ay1)) := ask in
  match select s tw th ask with
  | Some sel => exists ex ey, sel = mkSel ((Z.max ax0 (x0 s) - tx0 s) / tdx s, ex) ((Z.max ay0 (y0 s) - ty0 s) / tdy s, ey) ((Z.max ax0 (x0 s), Z.min ax1 (x1 s)), (Z.max ay0 (y0 s), Z.min ay1 (y1 s))) /\
      ceil_of (Z.min ax1 (x1 s) - tx0 s) (tdx s) ex /\ ceil_of (Z.min ay1 (y1 s) - ty0 s) (tdy s) ey /\
      (0 <= ax0 <= x1 s /\ 0 < ax1 /\ x0 s <= ax1) /\ (0 <= ay0 <= y1 s /\ 0 < ay1 /\ y0 s <= ay1)
  | None => ~ ((0 <= ax0 <= x1 s /\ 0 < ax1 /\ x0 s <= ax1) /\ (0 <= ay0 <= y1 s /\ 0 < ay1 /\ y0 s <= ay1))
  end.
Proof.
  intros s tw th [[ax0 ax1] [ay0 ay1]] HF (C1 & C2 & C3 & C4) HN. cbn [fst snd] in *. destruct (framed_axes s tw th HF) as (Ax & Ay & _). unfold select.
  destruct ((ax0 =? 0) && (ay0 =? 0) && (ax1 =? 0) && (ay1 =? 0)) eqn:EZ.
  { exfalso. apply HN. rewrite !andb_true_iff, !Z.eqb_eq in EZ. unfold nothing. destruct EZ as (((-> & ->) & ->) & ->). reflexivity. }
  clear EZ HN.
  pose proof (start_spec _ _ _ _ _ ax0 Ax C1) as S1. pose proof (start_spec _ _ _ _ _ ay0 Ay C3) as S2. pose proof (end_spec _ _ _ _ _ ax1 Ax C2) as E1. pose proof (end_spec _ _ _ _ _ ay1 Ay C4) as E2.
  destruct (start_axis (x0 s) _ _ _ ax0) as [[sx wx0] |]; [| tauto]. destruct (start_axis (y0 s) _ _ _ ay0) as [[sy wy0] |]; [| tauto].
  destruct (end_axis (x0 s) _ _ _ _ ax1) as [[ex wx1] |]; [| tauto]. destruct (end_axis (y0 s) _ _ _ _ ay1) as [[ey wy1] |]; [| tauto].
  destruct S1 as (S1 & -> & ->), S2 as (S2 & -> & ->), E1 as (E1 & E1' & -> & E1''), E2 as (E2 & E2' & -> & E2''). exists ex, ey. split; [reflexivity |]. tauto.
Qed.

Lemma in_image : forall s tw th ask, framed s tw th -> coords ask -> (exists x y, inside (extent_of s) x y /\ inside ask x y) -> ask <> nothing.
Proof. intros s tw th ask _ _ (x & y & _ & A & _) ->. unfold GeomProofs.within, nothing in A. cbn [fst snd] in A. lia. Qed.

(** The components, for any window inside the bounds of the image. *)
Lemma dims_spec : forall s win fac c, Forall comp_ok (comps s) -> 0 <= fac <= 32 -> 0 <= c < numcomps s ->
  0 <= fst (fst win) < 2 ^ 31 -> 0 <= snd (fst win) < 2 ^ 31 -> 0 <= fst (snd win) < 2 ^ 31 -> 0 <= snd (snd win) < 2 ^ 31 ->
  let q := look comp0 (comps s) c in
  match dims win fac q with
  | Some o => factor o = fac /\ odata o = None /\ (forall x y, inside (out_rect o) x y <-> inside win (x * 2 ^ fac * c_dx q) (y * 2 ^ fac * c_dy q)) /\
      ceil_of (fst (fst win)) (c_dx q) (ox0 o) /\ ceil_of (fst (snd win)) (c_dy q) (oy0 o) /\
      0 <= X0 o /\ 0 <= ow o /\ X0 o + ow o < 2 ^ 31 /\ 0 <= Y0 o /\ 0 <= oh o /\ Y0 o + oh o < 2 ^ 31 /\
      ceil_of (snd (fst win)) (c_dx q * 2 ^ fac) (X0 o + ow o) /\ ceil_of (snd (snd win)) (c_dy q * 2 ^ fac) (Y0 o + oh o)
  | None => ~ (fst (fst win) <= snd (fst win) /\ fst (snd win) <= snd (snd win))
  end.
Proof.
  intros s [[wx0 wx1] [wy0 wy1]] fac c HC Hf Hc B1 B2 B3 B4. cbn [fst snd] in *. cbn zeta. pose proof (comp_at s c HC Hc) as (_ & _ & Dx & Dy). set (q := look comp0 (comps s) c) in *.
  unfold dims. cbn [fst snd]. pose proof (dim_spec wx0 wx1 (c_dx q) fac B1 B2 Dx Hf) as A. pose proof (dim_spec wy0 wy1 (c_dy q) fac B3 B4 Dy Hf) as B.
  destruct (dim_axis (wx0, wx1) (c_dx q) fac) as [[a w] |]; [| lia]. destruct (dim_axis (wy0, wy1) (c_dy q) fac) as [[b h] |]; [| lia].
  destruct A as (A0 & A1 & A2 & A3 & A4 & A5), B as (B0 & B1' & B2' & B3' & B4' & B5). pose proof (Z.pow_pos_nonneg 2 fac ltac:(lia) ltac:(lia)) as P. cbn [factor odata ox0 oy0].
  split; [reflexivity |]. split; [reflexivity |]. split.
  - intros x y. unfold out_rect, X0, Y0, inside. cbn [ox0 oy0 factor ow oh fst snd].
    rewrite (ceil_within wx0 wx1 (c_dx q * 2 ^ fac) _ _ x ltac:(nia) A4 A5), (ceil_within wy0 wy1 (c_dy q * 2 ^ fac) _ _ y ltac:(nia) B4' B5).
    replace (x * (c_dx q * 2 ^ fac)) with (x * 2 ^ fac * c_dx q) by ring. replace (y * (c_dy q * 2 ^ fac)) with (y * 2 ^ fac * c_dy q) by ring. reflexivity.
  - unfold X0, Y0. cbn [ox0 oy0 factor ow oh]. split; [exact A0 |]. split; [exact B0 |]. do 6 (split; [lia |]). split; assumption.
Qed.

(** ** Theorems *)

(** An area with pixels is refused only if it begins before 0 or after the end of
    the image or ends before its beginning. *)
Theorem c66_accepted : forall s tw th fac ask, framed s tw th -> 0 <= fac <= 32 -> coords ask -> not_empty ask ->
  set_decode_area s tw th fac ask <> None <->
  (0 <= fst (fst ask) <= x1 s /\ x0 s <= snd (fst ask)) /\ (0 <= fst (snd ask) <= y1 s /\ y0 s <= snd (snd ask)).
Proof.
  intros s tw th fac ask HF Hf HC HN. assert (NN : ask <> nothing) by (intros ->; destruct HN as [A _]; cbn in A; lia).
  pose proof (selecting s tw th ask HF HC NN) as SE. destruct ask as [[ax0 ax1] [ay0 ay1]]. unfold set_decode_area, coords, not_empty, in_i32 in *. cbn [fst snd] in *.
  destruct (framed_axes s tw th HF) as (Ax & Ay & _). unfold axis_ok in *. pose proof HF as (_ & _ & _ & HCo & _).
  destruct (select s tw th ((ax0, ax1), (ay0, ay1))) as [sel |]; [| split; [intros A; contradiction | intros; exfalso; lia]].
  destruct SE as (ex & ey & -> & _ & _ & P & Q). cbn [sel_win]. split; [intros _; lia |]. intros _.
  match goal with |- context [all_some ?L] => destruct (all_some L) eqn:EA end; [discriminate |]. exfalso. revert EA. apply TileProofs.all_some_total. intros q I.
  apply (In_nth _ _ comp0) in I. destruct I as (k & Hk & <-). pose proof (dims_spec s ((Z.max ax0 (x0 s), Z.min ax1 (x1 s)), (Z.max ay0 (y0 s), Z.min ay1 (y1 s))) fac (Z.of_nat k) HCo Hf ltac:(unfold numcomps; lia)) as D.
  cbn [fst snd] in D. specialize (D ltac:(lia) ltac:(lia) ltac:(lia) ltac:(lia)). cbn zeta in D. unfold look in D. rewrite Nat2Z.id in D. destruct (dims _ _ _); [discriminate | lia].
Qed.

(** Of an area with pixels of the image, the part in the image is decoded, and
    the tiles that it meets. *)
Theorem c66_selected : forall s tw th fac ask sel os, framed s tw th -> coords ask -> (exists x y, inside (extent_of s) x y /\ inside ask x y) ->
  set_decode_area s tw th fac ask = Some (sel, os) ->
  (forall x y, inside (sel_win sel) x y <-> inside (extent_of s) x y /\ inside ask x y) /\
  forall i r, 0 <= i < tw * th -> tile_rect (x0 s, x1 s) (y0 s, y1 s) (tx0 s, tdx s) (ty0 s, tdy s) tw i = Some r ->
    (selected sel tw i = true <-> exists x y, inside r x y /\ inside ask x y).
Proof.
  intros s tw th fac ask sel os HF HC HX E. pose proof (selecting s tw th ask HF HC (in_image s tw th ask HF HC HX)) as SE. unfold set_decode_area in E.
  destruct (framed_axes s tw th HF) as (Ax & Ay & _). destruct ask as [[ax0 ax1] [ay0 ay1]]. destruct HX as (px & py & [Ix Iy] & [Jx Jy]). unfold GeomProofs.within, extent_of in Ix, Iy, Jx, Jy. cbn [fst snd] in *.
  destruct (select s tw th ((ax0, ax1), (ay0, ay1))) as [sel' |]; [| discriminate]. destruct (all_some _); [| discriminate]. apply some_inj in E. injection E as -> _.
  destruct SE as (ex & ey & -> & Cx & Cy & P & Q). cbn [sel_win]. split.
  - intros x y. unfold inside, GeomProofs.within, extent_of. cbn [fst snd]. lia.
  - intros i r Hi ER. destruct (tile_extent s tw th i r HF Hi ER) as (Hp & Hq & ->). unfold selected. cbn [sel_tx sel_ty fst snd]. set (p := i mod tw) in *. set (q := i / tw) in *.
    assert (Bx : x0 s <= Z.max ax0 (x0 s) < Z.min ax1 (x1 s)) by (clear - Ix Jx; lia). assert (By : y0 s <= Z.max ay0 (y0 s) < Z.min ay1 (y1 s)) by (clear - Iy Jy; lia).
    pose proof (met _ _ _ _ _ _ _ ex p Ax Bx (Z.le_min_r _ _) Cx Hp) as Mx. pose proof (met _ _ _ _ _ _ _ ey q Ay By (Z.le_min_r _ _) Cy Hq) as My.
    rewrite negb_true_iff, !orb_false_iff, !Z.ltb_ge, !Z.leb_gt. split.
    + intros (((A & B) & C) & D). destruct (proj1 Mx (conj A B)) as (x & X1 & X2). destruct (proj1 My (conj C D)) as (y & Y1 & Y2). exists x, y. split; (split; [clear - X1 X2 | clear - Y1 Y2]); unfold GeomProofs.within in *; cbn [fst snd] in *; lia.
    + intros (x & y & [X1 Y1] & [X2 Y2]).
      assert (A : (Z.max ax0 (x0 s) - tx0 s) / tdx s <= p < ex) by (apply Mx; exists x; clear - X1 X2; unfold GeomProofs.within in *; cbn [fst snd] in *; lia).
      assert (B : (Z.max ay0 (y0 s) - ty0 s) / tdy s <= q < ey) by (apply My; exists y; clear - Y1 Y2; unfold GeomProofs.within in *; cbn [fst snd] in *; lia). tauto.
Qed.

(** If nothing is asked for, all of the image and all tiles are decoded. *)
Theorem c66_whole : forall s tw th fac sel os, framed s tw th -> set_decode_area s tw th fac nothing = Some (sel, os) ->
  sel_win sel = extent_of s /\ forall i, 0 <= i < tw * th -> selected sel tw i = true.
Proof.
  intros s tw th fac sel os HF E. unfold set_decode_area, select, nothing in E. cbn [Z.eqb andb] in E. destruct (all_some _); [| discriminate]. apply some_inj in E. injection E as <- _. split; [reflexivity |].
  intros i Hi. destruct (framed_axes s tw th HF) as (_ & _ & W1 & W2 & _). destruct (flat_split tw th i ltac:(lia) Hi) as (P & Q & _). unfold selected. cbn [sel_tx sel_ty fst snd]. rewrite negb_true_iff, !orb_false_iff, !Z.ltb_ge, !Z.leb_gt. lia.
Qed.

(** Every component of the output image is the samples of the area at the reduced
    resolution. *)
Theorem c66_components : forall s tw th fac ask sel os, framed s tw th -> 0 <= fac <= 32 -> coords ask -> set_decode_area s tw th fac ask = Some (sel, os) ->
  length os = length (comps s) /\
  forall c, 0 <= c < numcomps s -> exists o, nth_error os (Z.to_nat c) = Some o /\ factor o = fac /\ odata o = None /\
    let q := look comp0 (comps s) c in forall x y, inside (out_rect o) x y <-> inside (sel_win sel) (x * 2 ^ fac * c_dx q) (y * 2 ^ fac * c_dy q).
Proof.
  intros s tw th fac ask sel os HF Hf HC E. pose proof HF as (_ & _ & _ & HCo & _). destruct (framed_axes s tw th HF) as (Ax & Ay & _). unfold axis_ok in *.
  assert (B : 0 <= fst (fst (sel_win sel)) < 2 ^ 31 /\ 0 <= snd (fst (sel_win sel)) < 2 ^ 31 /\ 0 <= fst (snd (sel_win sel)) < 2 ^ 31 /\ 0 <= snd (snd (sel_win sel)) < 2 ^ 31).
  { unfold set_decode_area in E. destruct (select s tw th ask) as [sel' |] eqn:ES; [| discriminate]. destruct (all_some _); [| discriminate]. apply some_inj in E. injection E as -> _.
    assert (D : ask = nothing \/ ask <> nothing).
    { destruct ask as [[a b] [c d]]. unfold nothing. destruct (Z.eq_dec a 0); [| right; congruence]. destruct (Z.eq_dec b 0); [| right; congruence]. destruct (Z.eq_dec c 0); [| right; congruence]. destruct (Z.eq_dec d 0); [| right; congruence]. left; congruence. }
    destruct D as [-> | D].
    - unfold select, nothing in ES. cbn [Z.eqb andb] in ES. apply some_inj in ES. subst sel. cbn [sel_win fst snd]. lia.
    - pose proof (selecting s tw th ask HF HC D) as SE. destruct ask as [[ax0 ax1] [ay0 ay1]]. unfold coords, in_i32 in HC. cbn [fst snd] in *. rewrite ES in SE. destruct SE as (ex & ey & -> & _ & _ & P & Q). cbn [sel_win fst snd]. lia. }
  unfold set_decode_area in E. destruct (select s tw th ask) as [sel' |]; [| discriminate]. destruct (all_some _) as [os' |] eqn:EA; [| discriminate]. apply some_inj in E. injection E as -> ->.
  destruct (GeomCover.all_some_nth _ _ EA) as [LO NO]. rewrite map_length in LO. split; [exact LO |]. intros c Hc.
  pose proof (dims_spec s (sel_win sel) fac c HCo Hf Hc) as D. destruct B as (B1 & B2 & B3 & B4). specialize (D B1 B2 B3 B4). cbn zeta in D |- *.
  assert (N : (Z.to_nat c < length os)%nat) by (unfold numcomps in Hc; lia). destruct (nth_error os (Z.to_nat c)) as [o |] eqn:EO; [| apply nth_error_None in EO; lia].
  assert (ED : dims (sel_win sel) fac (look comp0 (comps s) c) = Some o).
  { apply NO in EO. rewrite nth_error_map in EO. unfold look. destruct (nth_error (comps s) (Z.to_nat c)) as [q |] eqn:Eq; [| discriminate]. cbn [option_map] in EO. apply some_inj in EO. rewrite (nth_error_nth _ _ _ Eq). exact EO. }
  rewrite ED in D. exists o. split; [reflexivity |]. tauto.
Qed.

(** A single tile asked for by its number has the place that the tile has,
    provided that the grid of tiles ends before 2^32. *)
Theorem c66_tile : forall s tw th i, framed s tw th -> tx0 s + tw * tdx s < 2 ^ 32 -> ty0 s + th * tdy s < 2 ^ 32 -> 0 <= i < tw * th ->
  get_tile_rect s tw th i = tile_rect (x0 s, x1 s) (y0 s, y1 s) (tx0 s, tdx s) (ty0 s, tdy s) tw i.
Proof.
  intros s tw th i HF Gx Gy Hi. pose proof HF as (HH & Hx & Hy & _). destruct (c28_tiles_exist _ _ _ _ _ _ i HH Hx Hy Hi) as (r & ER & _). rewrite ER. destruct (tile_extent s tw th i r HF Hi ER) as (Hp & Hq & ->).
  destruct (framed_axes s tw th HF) as (Ax & Ay & W1 & W2 & W3). unfold get_tile_rect. rewrite (u32_id (tw * th)) by lia. destruct (Z.leb_spec (tw * th) i); [lia |].
  assert (G : forall i0 i1 t0 td n p, axis_ok i0 i1 t0 td n -> t0 + n * td < 2 ^ 32 -> n <= 65535 -> 0 <= p < n -> get_axis i0 i1 t0 td p = (Z.max (t0 + p * td) i0, Z.min (t0 + (p + 1) * td) i1)).
  { clear. unfold axis_ok, get_axis. intros i0 i1 t0 td n p (A0 & A1 & A2 & A3 & A4) G N Hp. assert (0 <= p * td /\ p * td + td <= n * td) by nia. rewrite (u32_id (p + 1)) by lia. replace ((p + 1) * td) with (p * td + td) by lia.
    rewrite (u32_id (p * td)), (u32_id (p * td + td)) by lia. rewrite !u32_id by lia. destruct (Z.ltb_spec (p * td + t0) i0), (Z.ltb_spec i1 (p * td + td + t0)); f_equal; lia. }
  rewrite (G _ _ _ _ _ _ Ax Gx ltac:(nia) Hp), (G _ _ _ _ _ _ Ay Gy ltac:(nia) Hq). reflexivity.
Qed.

(** ** What does not hold *)

(** Beyond that, the end of the tile wraps: here the only tile would end before it
    begins, and its component is given a width of 2^32 - 1 samples. *)
Theorem c66_tile_refuted : exists s tw th r, tiles_of s = Some (tw, th) /\ tile_rect (x0 s, x1 s) (y0 s, y1 s) (tx0 s, tdx s) (ty0 s, tdy s) tw 0 = Some ((1, 20), (0, 4)) /\
  get_tile_rect s tw th 0 = Some r /\ r = ((1, 0), (0, 4)) /\ get_dim (fst r) 1 0 = Some (1, 2 ^ 32 - 1).
Proof. exists (mkSiz 0 20 4 1 0 (2 ^ 32 - 1) 4 1 0 [mkComp 8 0 1 1]). do 3 eexists. split; [vm_compute; reflexivity |]. split; [vm_compute; reflexivity |]. split; [vm_compute; reflexivity |]. split; vm_compute; reflexivity. Qed.

(** An area that ends where the image begins is accepted, with a tile to decode. *)
Theorem c66_empty_refuted : exists s tw th ask sel os, tiles_of s = Some (tw, th) /\ set_decode_area s tw th 0 ask = Some (sel, os) /\ selected sel tw 0 = true /\
  not_empty ask /\ forall x y, ~ (inside (extent_of s) x y /\ inside ask x y).
Proof.
  exists (mkSiz 0 8 4 4 0 6 4 0 0 [mkComp 8 0 1 1]), 2, 1, ((0, 4), (0, 4)). do 2 eexists. split; [vm_compute; reflexivity |]. split; [vm_compute; reflexivity |]. split; [vm_compute; reflexivity |]. split; [unfold not_empty; cbn; lia |].
  intros x y. unfold inside, extent_of, GeomProofs.within. cbn [x0 y0 x1 y1 fst snd]. lia.
Qed.

(** An area that ends before it begins is accepted if no sample lies between. *)
Theorem c66_inverted_refuted : exists s tw th ask sel os, tiles_of s = Some (tw, th) /\ set_decode_area s tw th 0 ask = Some (sel, os) /\ snd (fst ask) < fst (fst ask) /\ selected sel tw 0 = true.
Proof. exists (mkSiz 0 8 8 0 0 8 8 0 0 [mkComp 8 0 4 4]), 1, 1, ((6, 5), (0, 8)). do 2 eexists. split; [vm_compute; reflexivity |]. split; [vm_compute; reflexivity |]. split; [cbn; lia | vm_compute; reflexivity]. Qed.

(** ** Example *)

(** Six tiles of 8 by 8 pixels, an image off the origin; the area meets the two
    tiles in the middle. *)
Example c66_example :
  let s := mkSiz 0 22 15 3 2 8 8 0 0 [mkComp 8 0 1 1; mkComp 8 0 2 2] in
  tiles_of s = Some (3, 2) /\
  match set_decode_area s 3 2 0 ((9, 14), (5, 10)) with
  | Some (sel, os) => (map (selected sel 3) (GeomModel.upto 6), sel_win sel, map (fun o => (ox0 o, oy0 o, ow o, oh o)) os) = ([false; true; false; false; true; false], ((9, 14), (5, 10)), [(9, 5, 5, 5); (5, 3, 2, 2)])
  | None => False
  end /\ map (get_tile_rect s 3 2) (GeomModel.upto 6) = map (tile_rect (3, 22) (2, 15) (0, 8) (0, 8) 3) (GeomModel.upto 6).
Proof. vm_compute. repeat split; reflexivity. Qed.

Print Assumptions c66_accepted.
Print Assumptions c66_selected.
Print Assumptions c66_whole.
Print Assumptions c66_components.
Print Assumptions c66_tile.
Print Assumptions c66_tile_refuted.
Print Assumptions c66_empty_refuted.
Print Assumptions c66_inverted_refuted.
