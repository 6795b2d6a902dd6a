(** C28: tiles partition the image. C38: code-blocks partition each band. *)

From Coq Require Import ZArith List Lia Bool.
From Verif Require Import I32 Ints MathModel MathProps GeomModel GeomProofs GeomCover.
Import ListNotations.
Local Open Scope Z_scope.

Definition inside (r : rect) (x y : Z) : Prop := within (fst r) x /\ within (snd r) y.

(** ** C28 *)

(** A size header as accepted by the decoder. *)
Definition header (ix iy tx ty : Z * Z) (tw th : Z) : Prop :=
  is_u32 (fst ix) /\ is_u32 (snd ix) /\ is_u32 (fst iy) /\ is_u32 (snd iy) /\
  is_u32 (fst tx) /\ is_u32 (snd tx) /\ is_u32 (fst ty) /\ is_u32 (snd ty) /\
  siz_tiles ix iy tx ty = Some (tw, th).

Lemma header_axes : forall ix iy tx ty tw th, header ix iy tx ty tw th ->
  0 < tw /\ 0 < th /\ tw * th <= 65535 /\
  siz_axis (fst ix) (snd ix) (fst tx) (snd tx) = Some tw /\ siz_axis (fst iy) (snd iy) (fst ty) (snd ty) = Some th.
Proof.
  intros ix iy tx ty tw th (A & B & C & D & E & F & G & H & S). unfold siz_tiles in S.
  destruct (siz_axis (fst ix) _ _ _) as [w |] eqn:Ew; [| discriminate].
  destruct (siz_axis (fst iy) _ _ _) as [h |] eqn:Eh; [| discriminate].
  apply siz_axis_spec in Ew as Sw; try assumption. apply siz_axis_spec in Eh as Sh; try assumption.
  destruct ((w =? 0) || (h =? 0) || (65535 / h <? w)) eqn:Ck; [discriminate |]. injection S as -> ->.
  apply orb_false_iff in Ck. destruct Ck as [_ Ck]. apply Z.ltb_ge in Ck.
  assert (0 < tw /\ 0 < th) by tauto. repeat split; try tauto.
  pose proof (Z.mul_div_le 65535 th ltac:(lia)). nia.
Qed.

Lemma flat_index : forall w h p q, 0 <= p < w -> 0 <= q < h ->
  0 <= p + q * w < w * h /\ (p + q * w) mod w = p /\ (p + q * w) / w = q.
Proof.
  intros w h p q Hp Hq. split; [nia |].
  split; [rewrite Z.mod_add by lia; apply Z.mod_small; lia | rewrite Z.div_add by lia; rewrite Z.div_small; lia].
Qed.

Lemma flat_split : forall w h i, 0 < w -> 0 <= i < w * h -> 0 <= i mod w < w /\ 0 <= i / w < h /\ i = i mod w + i / w * w.
Proof.
  intros w h i Hw Hi. pose proof (Z.mod_pos_bound i w Hw). pose proof (Z.div_mod i w ltac:(lia)).
  split; [assumption |]. split; [| lia]. split; [apply Z.div_pos; lia | apply Z.div_lt_upper_bound; lia].
Qed.

(** Every tile of the grid is set up, is not empty and lies in the image. *)
Theorem c28_tiles_exist : forall ix iy tx ty tw th no, header ix iy tx ty tw th -> snd ix < 2 ^ 31 -> snd iy < 2 ^ 31 ->
  0 <= no < tw * th ->
  exists r, tile_rect ix iy tx ty tw no = Some r /\ fst (fst r) < snd (fst r) /\ fst (snd r) < snd (snd r) /\
    forall x y, inside r x y -> inside (ix, iy) x y.
Proof.
  intros ix iy tx ty tw th no H Hx Hy Hno. destruct (header_axes _ _ _ _ _ _ H) as (W & T & _ & Ax & Ay).
  destruct H as (A & B & C & D & E & F & G & I & _).
  apply siz_axis_spec in Ax; try assumption. apply siz_axis_spec in Ay; try assumption.
  destruct (flat_split tw th no W Hno) as (P & Q & _).
  destruct Ax as (x1 & x2 & x3 & x4 & _), Ay as (y1 & y2 & y3 & y4 & _).
  destruct (tile_axis_spec (fst ix) (snd ix) (fst tx) (snd tx) tw (no mod tw)) as [Ex Lx]; try assumption.
  destruct (tile_axis_spec (fst iy) (snd iy) (fst ty) (snd ty) th (no / tw)) as [Ey Ly]; try assumption.
  unfold tile_rect. rewrite Ex, Ey. eexists. split; [reflexivity |]. cbn [fst snd]. split; [exact Lx |]. split; [exact Ly |].
  unfold inside, within. cbn [fst snd]. intros x y. lia.
Qed.

(** Every image position is in exactly one tile. *)
Theorem c28_partition : forall ix iy tx ty tw th x y, header ix iy tx ty tw th -> snd ix < 2 ^ 31 -> snd iy < 2 ^ 31 ->
  inside (ix, iy) x y ->
  exists! no, 0 <= no < tw * th /\ exists r, tile_rect ix iy tx ty tw no = Some r /\ inside r x y.
Proof.
  intros ix iy tx ty tw th x y H Hx Hy Hin. destruct (header_axes _ _ _ _ _ _ H) as (W & T & _ & Ax & Ay).
  destruct H as (A & B & C & D & E & F & G & I & _).
  apply siz_axis_spec in Ax; try assumption. apply siz_axis_spec in Ay; try assumption.
  destruct Ax as (x1 & x2 & x3 & x4 & _), Ay as (y1 & y2 & y3 & y4 & _).
  destruct Hin as [Hix Hiy]. unfold within in Hix, Hiy. cbn [fst snd] in Hix, Hiy.
  pose proof (tile_axis_cover (fst ix) (snd ix) (fst tx) (snd tx) tw x x1 x2 x3 x4 Hix) as [Px Wx].
  pose proof (tile_axis_cover (fst iy) (snd iy) (fst ty) (snd ty) th y y1 y2 y3 y4 Hiy) as [Py Wy].
  cbn zeta in *. set (p := (x - fst tx) / snd tx) in *. set (q := (y - fst ty) / snd ty) in *.
  destruct (flat_index tw th p q Px Py) as (Hno & Mo & Di).
  exists (p + q * tw). split.
  - split; [exact Hno |]. unfold tile_rect. rewrite Mo, Di.
    destruct (tile_axis_spec (fst ix) (snd ix) (fst tx) (snd tx) tw p) as [Ex _]; try assumption.
    destruct (tile_axis_spec (fst iy) (snd iy) (fst ty) (snd ty) th q) as [Ey _]; try assumption.
    rewrite Ex, Ey. eexists. split; [reflexivity |]. split; assumption.
  - intros no [Hn (r & Er & Hr)]. destruct (flat_split tw th no W Hn) as (P & Q & ->).
    unfold tile_rect in Er.
    destruct (tile_axis_spec (fst ix) (snd ix) (fst tx) (snd tx) tw (no mod tw)) as [Ex _]; try assumption.
    destruct (tile_axis_spec (fst iy) (snd iy) (fst ty) (snd ty) th (no / tw)) as [Ey _]; try assumption.
    rewrite Ex, Ey in Er. injection Er as <-.
    destruct Hr as [Rx Ry]. cbn [fst snd] in Rx, Ry.
    apply tile_axis_only in Rx; [| exact x1]. apply tile_axis_only in Ry; [| exact y1].
    rewrite Rx, Ry. reflexivity.
Qed.

(** The rectangle of a component in a tile. *)
Definition comp_rect (r : rect) (dx dy : Z) : option rect :=
  match comp_axis (fst r) dx, comp_axis (snd r) dy with Some a, Some b => Some (a, b) | _, _ => None end.

(** Sample (x, y) of a component is in the component's rectangle of a tile iff
    its reference position (x dx, y dy) is in the tile. *)
Theorem c28_component : forall ix iy tx ty tw th no dx dy, header ix iy tx ty tw th -> snd ix < 2 ^ 31 -> snd iy < 2 ^ 31 ->
  0 <= no < tw * th -> 1 <= dx <= 255 -> 1 <= dy <= 255 ->
  exists r c, tile_rect ix iy tx ty tw no = Some r /\ comp_rect r dx dy = Some c /\
    forall x y, inside c x y <-> inside r (x * dx) (y * dy).
Proof.
  intros ix iy tx ty tw th no dx dy H Hx Hy Hno Hdx Hdy.
  destruct (c28_tiles_exist _ _ _ _ _ _ no H Hx Hy Hno) as (r & E & Lx & Ly & I). exists r.
  destruct r as [[a b] [c d]]. cbn [fst snd] in *.
  destruct H as (A & B & C & D & _). unfold is_u32 in *.
  assert (I1 : inside (ix, iy) a c) by (apply I; split; unfold within; cbn; lia).
  assert (I2 : inside (ix, iy) (b - 1) (d - 1)) by (apply I; split; unfold within; cbn; lia).
  unfold inside, within in I1, I2. cbn [fst snd] in I1, I2.
  unfold comp_rect. cbn [fst snd].
  destruct (comp_axis_spec a b dx ltac:(lia) ltac:(lia) ltac:(lia)) as (u & -> & U).
  destruct (comp_axis_spec c d dy ltac:(lia) ltac:(lia) ltac:(lia)) as (v & -> & V).
  exists (u, v). split; [exact E |]. split; [reflexivity |]. intros x y. unfold inside. cbn [fst snd]. rewrite U, V. tauto.
Qed.

(** So the tiles' component rectangles partition the component. *)
Theorem c28_components_partition : forall ix iy tx ty tw th dx dy x y, header ix iy tx ty tw th ->
  snd ix < 2 ^ 31 -> snd iy < 2 ^ 31 -> 1 <= dx <= 255 -> 1 <= dy <= 255 -> inside (ix, iy) (x * dx) (y * dy) ->
  exists! no, 0 <= no < tw * th /\
    exists r c, tile_rect ix iy tx ty tw no = Some r /\ comp_rect r dx dy = Some c /\ inside c x y.
Proof.
  intros ix iy tx ty tw th dx dy x y H Hx Hy Hdx Hdy Hin.
  destruct (c28_partition _ _ _ _ _ _ _ _ H Hx Hy Hin) as (no & (Hno & r & Er & Hr) & U).
  exists no. split.
  - split; [exact Hno |]. destruct (c28_component _ _ _ _ _ _ no dx dy H Hx Hy Hno Hdx Hdy) as (r' & c & E' & Ec & Q).
    exists r', c. rewrite Er in E'. injection E' as <-. split; [exact Er |]. split; [exact Ec |]. apply Q, Hr.
  - intros no' [Hno' (r' & c' & Er' & Ec' & Hc')]. apply U. split; [exact Hno' |].
    destruct (c28_component _ _ _ _ _ _ no' dx dy H Hx Hy Hno' Hdx Hdy) as (r2 & c2 & E2 & Ec2 & Q2).
    rewrite Er' in E2. injection E2 as <-. rewrite Ec' in Ec2. injection Ec2 as <-.
    exists r'. split; [exact Er' |]. apply Q2, Hc'.
Qed.

(** An image reaching beyond 2^31 passes the header checks, but its last tile
    is refused. *)
Theorem c28_large_refuted : exists ix iy tx ty tw th no, header ix iy tx ty tw th /\ 0 <= no < tw * th /\
  tile_rect ix iy tx ty tw no = None.
Proof.
  exists (0, 2 ^ 31), (0, 1), (0, 2 ^ 31), (0, 1), 1, 1, 0. unfold header, is_u32. cbn [fst snd].
  repeat split; try lia; reflexivity.
Qed.

Example c28_example :
  siz_tiles (3, 20) (0, 10) (1, 8) (0, 10) = Some (3, 1) /\
  map (tile_rect (3, 20) (0, 10) (1, 8) (0, 10) 3) [0; 1; 2] =
    [Some ((3, 9), (0, 10)); Some ((9, 17), (0, 10)); Some ((17, 20), (0, 10))] /\
  map (fun r => comp_rect r 2 3) [((3, 9), (0, 10)); ((9, 17), (0, 10)); ((17, 20), (0, 10))] =
    [Some ((2, 5), (0, 4)); Some ((5, 9), (0, 4)); Some ((9, 10), (0, 4))] /\
  siz_tiles (3, 20) (0, 10) (4, 8) (0, 10) = None.
Proof. vm_compute. repeat split. Qed.

(** ** C38 *)

(** A tile component and the parameters the header reader lets through. *)
Record setting (comp : rect) (n resno bandno psize size : Z) (c : coding) : Prop := {
  set_x : extent (fst comp); set_y : extent (snd comp);
  set_n : 1 <= n <= 33; set_res : 0 <= resno < n;
  set_band : 0 <= bandno < (if resno =? 0 then 1 else 3);
  set_pd : 0 <= pdx c <= 15 /\ 0 <= pdy c <= 15; set_pd1 : 0 < resno -> 1 <= pdx c /\ 1 <= pdy c;
  set_cb : 2 <= cblkw c <= 10 /\ 2 <= cblkh c <= 10;
  set_size : 0 < psize /\ 0 < size }.

(** The precincts of the band, in terms of the two axes. *)
Definition axes (resno start pd cb : Z) : Z * Z * Z :=
  let '(g, e) := group_axis resno start pd in (g, e, Z.min cb e).

Lemma some_inj : forall {A} (a b : A), Some a = Some b -> a = b.
Proof. congruence. Qed.

Lemma band_structure : forall comp n resno bandno psize size c ps, setting comp n resno bandno psize size c ->
  band_precincts psize size c comp n resno bandno = Some ps ->
  exists gx ex cx pw gy ey cy ph,
    let band := band_rect comp n resno bandno in
    grid_ok gx ex pw (fst band) /\ 0 <= cx <= ex /\ cx <= cblkw c /\
    grid_ok gy ey ph (snd band) /\ 0 <= cy <= ey /\ cy <= cblkh c /\
    length ps = Z.to_nat (pw * ph) /\
    forall i p, nth_error ps i = Some p ->
      let kx := Z.of_nat i mod pw in let ky := Z.of_nat i / pw in
      0 <= kx < pw /\ 0 <= ky < ph /\ Z.of_nat i = kx + ky * pw /\
      prect p = (precinct_axis gx ex (fst band) kx, precinct_axis gy ey (snd band) ky) /\
      cw p = cell_count gx ex cx (fst band) kx /\ ch p = cell_count gy ey cy (snd band) ky /\
      length (cblks p) = Z.to_nat (cw p * ch p) /\
      forall j r, nth_error (cblks p) j = Some r ->
        let jx := Z.of_nat j mod cw p in let jy := Z.of_nat j / cw p in
        0 <= jx < cw p /\ 0 <= jy < ch p /\ Z.of_nat j = jx + jy * cw p /\
        r = (cell gx ex cx (fst band) kx jx, cell gy ey cy (snd band) ky jy).
Proof.
  intros comp n resno bandno psize size c ps [Sx Sy Sn Sr Sb [Spx Spy] Sp1 [Scw Sch] [Sps Ss]] E.
  unfold band_precincts, make_band in E. unfold res_rect in E. cbn [fst snd] in E.
  set (band := band_rect comp n resno bandno) in *.
  destruct (prec_axis (res_axis (fst comp) (n - 1 - resno)) (pdx c)) as [[sx pw] |] eqn:Px; [| discriminate].
  destruct (prec_axis (res_axis (snd comp) (n - 1 - resno)) (pdy c)) as [[sy ph] |] eqn:Py; [| discriminate].
  destruct (negb (pw =? 0) && ((2 ^ 32 - 1) / pw <? ph)) eqn:Ck; [discriminate |].
  destruct ((2 ^ 32 - 1) / psize <? u32 (pw * ph)) eqn:Ck2; [discriminate |].
  assert (Ob : exists ox oy, 0 <= ox <= 1 /\ 0 <= oy <= 1 /\
            fst band = band_axis resno (fst comp) (n - 1 - resno) ox /\ snd band = band_axis resno (snd comp) (n - 1 - resno) oy).
  { unfold band, band_rect, band_offsets. exists (Z.land (bandno + 1) 1), (Z.shiftr (bandno + 1) 1). cbn [fst snd].
    assert (Hb : bandno = 0 \/ bandno = 1 \/ bandno = 2) by (destruct (resno =? 0); lia).
    destruct Hb as [-> | [-> | ->]]; cbn; repeat split; lia. }
  destruct Ob as (ox & oy & Hox & Hoy & Bx & By).
  pose proof (group_grid resno (fst comp) (n - 1 - resno) ox (pdx c) sx pw Sx ltac:(lia) ltac:(lia) Hox ltac:(lia) Spx
                ltac:(intros; apply Sp1; lia) Px) as Gx.
  pose proof (group_grid resno (snd comp) (n - 1 - resno) oy (pdy c) sy ph Sy ltac:(lia) ltac:(lia) Hoy ltac:(lia) Spy
                ltac:(intros; apply Sp1; lia) Py) as Gy.
  rewrite <- Bx in Gx. rewrite <- By in Gy.
  destruct (group_axis resno sx (pdx c)) as [gx ex] eqn:Egx. destruct (group_axis resno sy (pdy c)) as [gy ey] eqn:Egy.
  set (cx := Z.min (cblkw c) ex) in *. set (cy := Z.min (cblkh c) ey) in *.
  assert (Ex : 0 <= ex <= 15) by (apply Gx). assert (Ey : 0 <= ey <= 15) by (apply Gy).
  assert (Npw : 0 <= pw) by (apply Gx). assert (Nph : 0 <= ph) by (apply Gy).
  assert (Hcx : 0 <= cx <= ex) by lia. assert (Hcy : 0 <= cy <= ey) by lia.
  exists gx, ex, cx, pw, gy, ey, cy, ph. cbn zeta. fold band.
  split; [exact Gx |]. split; [exact Hcx |]. split; [lia |]. split; [exact Gy |]. split; [exact Hcy |]. split; [lia |].
  assert (Wp : u32 (pw * ph) = pw * ph).
  { apply u32_id. split; [nia |]. destruct (Z.eqb_spec pw 0) as [-> | Hne]; [lia |]. cbn [negb andb] in Ck.
    apply Z.ltb_ge in Ck. pose proof (Z.mul_div_le (2 ^ 32 - 1) pw ltac:(lia)). nia. }
  rewrite Wp in E. apply all_some_nth in E. destruct E as [Ln En]. rewrite map_length, upto_length in Ln.
  split; [exact Ln |]. intros i p Hi. pose proof Hi as Hlt.
  assert (Lt : (i < Z.to_nat (pw * ph))%nat) by (rewrite <- Ln; apply nth_error_Some; congruence).
  apply En in Hi. rewrite nth_error_map, upto_nth in Hi by (try exact Lt; nia).
  cbn [option_map] in Hi. apply some_inj in Hi.
  unfold make_precinct in Hi. rewrite Egx, Egy in Hi.
  assert (Pw0 : 0 < pw) by nia.
  destruct (flat_split pw ph (Z.of_nat i) Pw0 ltac:(lia)) as (Kx & Ky & Ki).
  split; [exact Kx |]. split; [exact Ky |]. split; [exact Ki |].
  set (kx := Z.of_nat i mod pw) in *. set (ky := Z.of_nat i / pw) in *.
  destruct (blocks_axis (precinct_axis gx ex (fst band) kx) cx) as [tlx w] eqn:Bwx.
  destruct (blocks_axis (precinct_axis gy ey (snd band) ky) cy) as [tly h] eqn:Bwy.
  assert (Cw : w = cell_count gx ex cx (fst band) kx) by (unfold cell_count; rewrite Bwx; reflexivity).
  assert (Chh : h = cell_count gy ey cy (snd band) ky) by (unfold cell_count; rewrite Bwy; reflexivity).
  assert (Wr : 0 <= w <= 2 ^ 15).
  { destruct (cell_spec gx ex cx pw (fst band) Gx Hcx kx Kx) as (_ & _ & s & t & Ec & A & B & _). rewrite Cw, Ec. lia. }
  assert (Hr : 0 <= h <= 2 ^ 15).
  { destruct (cell_spec gy ey cy ph (snd band) Gy Hcy ky Ky) as (_ & _ & s & t & Ec & A & B & _). rewrite Chh, Ec. lia. }
  pose proof (mul_bound w h (2 ^ 15) (2 ^ 15) Wr Hr) as Mb.
  cbn zeta in Hi. fold cx cy kx ky in Hi. rewrite Bwx, Bwy in Hi.
  rewrite (u32_id (w * h)) in Hi by lia.
  destruct ((2 ^ 32 - 1) / size <? w * h); [discriminate |]. apply some_inj in Hi. subst p. cbn [prect cw ch cblks].
  split; [reflexivity |]. split; [exact Cw |]. split; [exact Chh |].
  split; [rewrite map_length, upto_length; reflexivity |].
  intros j r Hj. rewrite nth_error_map in Hj.
  destruct (nth_error (upto (w * h)) j) as [z |] eqn:Ej; [| discriminate]. cbn [option_map] in Hj. apply some_inj in Hj. subst r.
  assert (Lj : (j < Z.to_nat (w * h))%nat) by (rewrite <- upto_length; apply nth_error_Some; congruence).
  rewrite upto_nth in Ej by (try exact Lj; lia). injection Ej as <-.
  assert (W0 : 0 < w) by nia.
  destruct (flat_split w h (Z.of_nat j) W0 ltac:(lia)) as (Jx & Jy & Jj).
  split; [exact Jx |]. split; [exact Jy |]. split; [exact Jj |]. unfold cell. rewrite Bwx, Bwy. reflexivity.
Qed.

(** Code-block [j] of precinct [i]. *)
Definition block_at (ps : list precinct) (i j : nat) (r : rect) : Prop :=
  exists p, nth_error ps i = Some p /\ nth_error (cblks p) j = Some r.

(** Every coefficient of the band is in exactly one code-block, and
    code-blocks contain nothing else. *)
Theorem c38_partition : forall comp n resno bandno psize size c ps, setting comp n resno bandno psize size c ->
  band_precincts psize size c comp n resno bandno = Some ps ->
  (forall x y, inside (band_rect comp n resno bandno) x y -> exists i j r, block_at ps i j r /\ inside r x y) /\
  (forall i j r x y, block_at ps i j r -> inside r x y -> inside (band_rect comp n resno bandno) x y) /\
  (forall i j r i' j' r' x y, block_at ps i j r -> block_at ps i' j' r' -> inside r x y -> inside r' x y ->
     i = i' /\ j = j').
Proof.
  intros comp n resno bandno psize size c ps S E.
  destruct (band_structure _ _ _ _ _ _ _ _ S E) as (gx & ex & cx & pw & gy & ey & cy & ph & Gx & Hcx & _ & Gy & Hcy & _ & Ln & N).
  set (band := band_rect comp n resno bandno) in *. split; [| split].
  - intros x y [Ix Iy].
    destruct (cell_cover gx ex cx pw (fst band) Gx Hcx x Ix) as (kx & jx & Hkx & Hjx & Wx).
    destruct (cell_cover gy ey cy ph (snd band) Gy Hcy y Iy) as (ky & jy & Hky & Hjy & Wy).
    destruct (flat_index pw ph kx ky Hkx Hky) as (F & M & D).
    destruct (nth_error ps (Z.to_nat (kx + ky * pw))) as [p |] eqn:Ep.
    2:{ apply nth_error_None in Ep. rewrite Ln in Ep. lia. }
    destruct (N _ _ Ep) as (_ & _ & _ & _ & Cw & Ch & Lc & Nb).
    rewrite Z2Nat.id in * by lia. rewrite M, D in *. rewrite <- Cw in Hjx. rewrite <- Ch in Hjy.
    destruct (flat_index (cw p) (ch p) jx jy Hjx Hjy) as (F' & M' & D').
    destruct (nth_error (cblks p) (Z.to_nat (jx + jy * cw p))) as [r |] eqn:Er.
    2:{ apply nth_error_None in Er. rewrite Lc in Er. lia. }
    exists (Z.to_nat (kx + ky * pw)), (Z.to_nat (jx + jy * cw p)), r. split; [exists p; split; assumption |].
    destruct (Nb _ _ Er) as (_ & _ & _ & ->). rewrite Z2Nat.id in * by lia. rewrite M', D'. split; assumption.
  - intros i j r x y (p & Hp & Hr) [Ix Iy].
    destruct (N _ _ Hp) as (Kx & Ky & _ & _ & Cw & Ch & _ & Nb). destruct (Nb _ _ Hr) as (Jx & Jy & _ & ->).
    cbn [fst snd] in *. rewrite Cw in Jx at 3. rewrite Ch in Jy.
    split.
    + exact (proj1 (cell_in_band gx ex cx pw (fst band) Gx Hcx _ _ x Kx Jx Ix)).
    + exact (proj1 (cell_in_band gy ey cy ph (snd band) Gy Hcy _ _ y Ky Jy Iy)).
  - intros i j r i' j' r' x y (p & Hp & Hr) (p' & Hp' & Hr') [Ix Iy] [Ix' Iy'].
    destruct (N _ _ Hp) as (Kx & Ky & Ei & _ & Cw & Ch & _ & Nb). destruct (Nb _ _ Hr) as (Jx & Jy & Ej & ->).
    destruct (N _ _ Hp') as (Kx' & Ky' & Ei' & _ & Cw' & Ch' & _ & Nb'). destruct (Nb' _ _ Hr') as (Jx' & Jy' & Ej' & ->).
    cbn [fst snd] in *.
    rewrite Cw in Jx at 3. rewrite Ch in Jy. rewrite Cw' in Jx' at 3. rewrite Ch' in Jy'.
    destruct (cell_unique gx ex cx pw (fst band) Gx Hcx _ _ _ _ x Kx Jx Ix Kx' Jx' Ix') as [A B].
    destruct (cell_unique gy ey cy ph (snd band) Gy Hcy _ _ _ _ y Ky Jy Iy Ky' Jy' Iy') as [C D].
    assert (I : i = i') by lia. split; [exact I |]. subst i'. rewrite Hp in Hp'. injection Hp' as <-. lia.
Qed.

(** In a band with samples every code-block has samples and respects the
    nominal code-block size (so at most 4096 samples when the exponents add
    up to at most 12). *)
Theorem c38_block_size : forall comp n resno bandno psize size c ps i j r, setting comp n resno bandno psize size c ->
  band_precincts psize size c comp n resno bandno = Some ps -> block_at ps i j r ->
  let band := band_rect comp n resno bandno in
  fst (fst band) < snd (fst band) -> fst (snd band) < snd (snd band) ->
  0 < snd (fst r) - fst (fst r) <= 2 ^ cblkw c /\ 0 < snd (snd r) - fst (snd r) <= 2 ^ cblkh c.
Proof.
  intros comp n resno bandno psize size c ps i j r S E (p & Hp & Hr). cbn zeta.
  destruct (band_structure _ _ _ _ _ _ _ _ S E) as (gx & ex & cx & pw & gy & ey & cy & ph & Gx & Hcx & Lx & Gy & Hcy & Ly & Ln & N).
  set (band := band_rect comp n resno bandno) in *. intros Bx By.
  destruct (N _ _ Hp) as (Kx & Ky & _ & _ & Cw & Ch & _ & Nb). destruct (Nb _ _ Hr) as (Jx & Jy & _ & ->).
  cbn [fst snd]. rewrite Cw in Jx at 3. rewrite Ch in Jy.
  pose proof (cell_size gx ex cx pw (fst band) Gx Hcx _ _ Kx Jx Bx) as A.
  pose proof (cell_size gy ey cy ph (snd band) Gy Hcy _ _ Ky Jy By) as B.
  assert (2 ^ cx <= 2 ^ cblkw c) by (apply Z.pow_le_mono_r; lia).
  assert (2 ^ cy <= 2 ^ cblkh c) by (apply Z.pow_le_mono_r; lia). lia.
Qed.

(** Band bounds are those of the standard (Annex B.5): for the lowest
    resolution the component scaled by 2^(n-1), else shifted by half a step. *)
Theorem c38_band_bounds : forall comp n resno bandno, extent (fst comp) -> extent (snd comp) -> 1 <= n <= 33 -> 0 <= resno < n ->
  0 <= bandno < (if resno =? 0 then 1 else 3) ->
  let l := n - 1 - resno in
  let ox := if resno =? 0 then 0 else (bandno + 1) mod 2 in let oy := if resno =? 0 then 0 else (bandno + 1) / 2 in
  let den := if resno =? 0 then 2 ^ l else 2 ^ (l + 1) in
  let b := band_rect comp n resno bandno in
  ceil_of (fst (fst comp) - ox * 2 ^ l) den (fst (fst b)) /\ ceil_of (snd (fst comp) - ox * 2 ^ l) den (snd (fst b)) /\
  ceil_of (fst (snd comp) - oy * 2 ^ l) den (fst (snd b)) /\ ceil_of (snd (snd comp) - oy * 2 ^ l) den (snd (snd b)).
Proof.
  intros comp n resno bandno Hx Hy Hn Hr Hb. cbn zeta. unfold band_rect, band_offsets. cbn [fst snd].
  assert (Cs : bandno = 0 \/ bandno = 1 \/ bandno = 2) by (destruct (resno =? 0); lia).
  assert (O : Z.land (bandno + 1) 1 = (bandno + 1) mod 2 /\ Z.shiftr (bandno + 1) 1 = (bandno + 1) / 2 /\
              0 <= (bandno + 1) mod 2 <= 1 /\ 0 <= (bandno + 1) / 2 <= 1)
    by (destruct Cs as [-> | [-> | ->]]; cbn; repeat split; lia).
  destruct O as (-> & -> & O1 & O2).
  pose proof (band_axis_spec resno (fst comp) (n - 1 - resno) _ Hx ltac:(lia) ltac:(lia) O1 ltac:(lia)) as A.
  pose proof (band_axis_spec resno (snd comp) (n - 1 - resno) _ Hy ltac:(lia) ltac:(lia) O2 ltac:(lia)) as B.
  cbn zeta in A, B. destruct (Z.eqb_spec resno 0) as [Z0 | Z0].
  - rewrite !Z.mul_0_l. tauto.
  - tauto.
Qed.

(** The four quarters of a resolution: the next lower resolution is the
    low-pass half, and widths add up, on each axis. *)
Theorem c38_bands_fill_resolution : forall comp n resno, extent (fst comp) -> extent (snd comp) -> 1 <= n <= 33 -> 1 <= resno < n ->
  let width e := snd e - fst e in
  let r := res_rect comp n resno in let low := res_rect comp n (resno - 1) in
  let hl := band_rect comp n resno 0 in let lh := band_rect comp n resno 1 in let hh := band_rect comp n resno 2 in
  width (fst r) = width (fst low) + width (fst hl) /\ width (snd r) = width (snd low) + width (snd lh) /\
  snd hl = snd low /\ fst lh = fst low /\ fst hh = fst hl /\ snd hh = snd lh.
Proof.
  intros comp n resno Hx Hy Hn Hr. cbn zeta. unfold band_rect, band_offsets, res_rect. cbn [fst snd].
  assert (L : n - 1 - (resno - 1) = n - 1 - resno + 1) by lia. rewrite L. set (l := n - 1 - resno).
  assert (Hl : 0 <= l <= 31) by lia.
  change (Z.land (0 + 1) 1) with 1. change (Z.shiftr (0 + 1) 1) with 0.
  change (Z.land (1 + 1) 1) with 0. change (Z.shiftr (1 + 1) 1) with 1.
  change (Z.land (2 + 1) 1) with 1. change (Z.shiftr (2 + 1) 1) with 1.
  assert (Same : forall c, extent c -> band_axis resno c l 0 = res_axis c (l + 1)).
  { intros c Hc. destruct (res_axis_spec c (l + 1) Hc ltac:(lia)) as (A & B & _).
    pose proof (band_axis_spec resno c l 0 Hc ltac:(lia) ltac:(lia) ltac:(lia) ltac:(lia)) as D. cbn zeta in D.
    destruct (Z.eqb_spec resno 0); [lia |]. rewrite Z.mul_0_l, !Z.sub_0_r in D. destruct D as [D1 D2].
    destruct (band_axis resno c l 0), (res_axis c (l + 1)). cbn [fst snd] in *.
    pose proof (pow_pos (l + 1) ltac:(lia)) as P. f_equal; unfold ceil_of in *; nia. }
  assert (Half : forall c, extent c -> snd (res_axis c l) - fst (res_axis c l) =
            snd (res_axis c (l + 1)) - fst (res_axis c (l + 1)) + (snd (band_axis resno c l 1) - fst (band_axis resno c l 1))).
  { intros c Hc. rewrite <- (Same c Hc).
    destruct (band_of_res resno c l 0 Hc ltac:(lia) ltac:(lia) ltac:(lia) ltac:(lia)) as [A B].
    destruct (band_of_res resno c l 1 Hc ltac:(lia) ltac:(lia) ltac:(lia) ltac:(lia)) as [C D].
    unfold ceil_of in *. lia. }
  rewrite !Same by assumption. repeat split; try reflexivity; apply Half; assumption.
Qed.

Example c38_example :
  let comp := ((5, 37), (0, 20)) in
  let c := mkCoding 4 4 2 3 in
  setting comp 3 2 0 1 1 c /\
  band_rect comp 3 2 0 = ((2, 18), (0, 10)) /\
  option_map (map (fun p => (prect p, cw p, ch p))) (band_precincts 1 1 c comp 3 2 0) =
    Some [(((2, 8), (0, 8)), 2, 1); (((8, 16), (0, 8)), 2, 1); (((16, 18), (0, 8)), 1, 1);
          (((2, 8), (8, 10)), 2, 1); (((8, 16), (8, 10)), 2, 1); (((16, 18), (8, 10)), 1, 1)] /\
  option_map (map cblks) (band_precincts 1 1 c comp 3 2 0) =
    Some [[((2, 4), (0, 8)); ((4, 8), (0, 8))]; [((8, 12), (0, 8)); ((12, 16), (0, 8))]; [((16, 18), (0, 8))];
          [((2, 4), (8, 10)); ((4, 8), (8, 10))]; [((8, 12), (8, 10)); ((12, 16), (8, 10))]; [((16, 18), (8, 10))]].
Proof.
  cbn zeta. split; [constructor; unfold extent; cbn; lia |]. vm_compute. repeat split.
Qed.

Print Assumptions c28_tiles_exist.
Print Assumptions c28_partition.
Print Assumptions c28_component.
Print Assumptions c28_components_partition.
Print Assumptions c28_large_refuted.
Print Assumptions c38_partition.
Print Assumptions c38_block_size.
Print Assumptions c38_band_bounds.
Print Assumptions c38_bands_fill_resolution.
