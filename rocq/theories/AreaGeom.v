(** The area of interest in terms of the coefficients that are wanted. *)

From Coq Require Import ZArith List Bool Arith Lia ZifyNat.
From Verif Require Import I32 Ints Mem MathModel MathProps DwtModel DwtProps DwtTile SampleModel SparseModel WindowModel WindowSpec WindowAxis WindowProofs WindowTile WindowProps.
From Verif Require Import MathModel GeomModel GeomProofs GeomCover GeomProps PiModel PiSpec T2PacketModel PacketsModel TileModel TileGeom TileProofs AreaModel.
Import ListNotations.
Local Open Scope Z_scope.
Local Notation u32 := Ints.u32.
Local Notation rect := GeomModel.rect.
Local Notation place := WindowSpec.place.
Local Notation cl := DwtModel.ceildivpow2.
Local Notation within := GeomProofs.within.
Ltac Zify.zify_post_hook ::= idtac.

(** ** Bands *)

Definition ori_x (r b : Z) : Z := Z.land (orient r b) 1.
Definition ori_y (r b : Z) : Z := Z.shiftr (orient r b) 1.

Lemma ori_bits : forall r b, In b (band_numbers r) -> band_bits r (ori_x r b) (ori_y r b) /\ orient r b = ori_x r b + 2 * ori_y r b.
Proof.
  intros r b H. unfold ori_x, ori_y, band_bits, orient, band_numbers in *. destruct (r =? 0).
  - destruct H as [<- | []]. cbn. auto.
  - destruct H as [<- | [<- | [<- | []]]]; cbn; lia.
Qed.
Lemma bits_ori : forall r o p, band_bits r o p -> exists b, In b (band_numbers r) /\ ori_x r b = o /\ ori_y r b = p.
Proof.
  intros r o p H. unfold band_bits, ori_x, ori_y, orient, band_numbers in *. destruct (r =? 0).
  - destruct H as [-> ->]. exists 0. cbn. auto.
  - destruct H as ([-> | ->] & [-> | ->] & H); [contradiction | exists 1 | exists 0 | exists 2]; cbn; auto.
Qed.

Lemma depth_pos : forall n r, 0 <= r < n -> 0 <= depth n r.
Proof. intros n r H. unfold depth. destruct (r =? 0); lia. Qed.

Lemma sb_ceil : forall o nb a, 0 <= nb -> ceil_of (a - 2 ^ (nb - 1) * o) (2 ^ nb) (sb o nb a).
Proof. intros o nb a H. unfold sb. apply cdiv_ceil. apply Z.pow_pos_nonneg; lia. Qed.

Lemma band_rect_sb : forall comp n r b, extent (fst comp) -> extent (snd comp) -> 1 <= n <= 33 -> 0 <= r < n -> In b (band_numbers r) ->
  let d := depth n r in let o := ori_x r b in let p := ori_y r b in
  band_rect comp n r b = ((sb o d (fst (fst comp)), sb o d (snd (fst comp))), (sb p d (fst (snd comp)), sb p d (snd (snd comp)))).
Proof.
  intros comp n r b Hx Hy Hn Hr Hb. cbn zeta. destruct (c38_band_bounds comp n r b Hx Hy Hn Hr (band_cases r b Hb)) as (A & B & C & D). cbn zeta in A, B, C, D.
  destruct (band_rect comp n r b) as [[x0 x1] [y0 y1]]. cbn [fst snd] in *.
  assert (E : forall o' a v, ceil_of (a - (if r =? 0 then 0 else o') * 2 ^ (n - 1 - r)) (if r =? 0 then 2 ^ (n - 1 - r) else 2 ^ (n - 1 - r + 1)) v -> v = sb (if r =? 0 then 0 else o') (depth n r) a).
  { intros o' a v H. pose proof (depth_pos n r Hr) as DP. apply (MathProps.ceil_unique (a - 2 ^ (depth n r - 1) * (if r =? 0 then 0 else o')) (2 ^ depth n r)); [apply Z.pow_pos_nonneg; lia | | apply sb_ceil, DP].
    unfold depth in *. destruct (Z.eqb_spec r 0) as [-> |].
    - rewrite Z.mul_0_l in H. rewrite Z.mul_0_r. replace (n - 1 - 0) with (n - 1) in H by lia. exact H.
    - replace (n - 1 - r + 1) with (n - r) in H by lia. replace (n - r - 1) with (n - 1 - r) by lia. rewrite Z.mul_comm. exact H. }
  rewrite (E _ _ _ A), (E _ _ _ B), (E _ _ _ C), (E _ _ _ D). clear. unfold ori_x, ori_y, orient. destruct (r =? 0); [reflexivity |].
  replace (Z.land (b + 1) 1) with ((b + 1) mod 2) by (change 1 with (Z.ones 1) at 3; rewrite Z.land_ones by lia; reflexivity).
  rewrite Z.shiftr_div_pow2 by lia. reflexivity.
Qed.

(** ** Interest *)

Lemma coord_sb : forall n r o a, 0 <= r < n -> n <= 33 -> (o = 0 \/ o = 1) -> (r = 0 -> o = 0) -> 0 <= a < 2 ^ 31 -> interest_coord n r o a = sb o (depth n r) a.
Proof.
  intros n r o a Hr Hn Ho Hz Ha. change (interest_coord n r o a) with (band_coord n r o a). destruct (Z.eq_dec r 0) as [-> | Ne].
  - rewrite (Hz eq_refl). unfold depth. rewrite Z.eqb_refl. rewrite sb_low by lia. unfold band_coord. rewrite Z.eqb_refl, (u32_id (n - 1)) by lia.
    destruct (Z.eqb_spec (n - 1) 0) as [E | E]; [rewrite E; rewrite ceildivpow2_eq by lia; rewrite Z.pow_0_r; rewrite Z.div_1_r; lia |].
    rewrite Z.mul_0_r. change (u32 0) with 0. destruct (Z.leb_spec a 0).
    + replace a with 0 by lia. pose proof (ceil_range 0 (n - 1) ltac:(lia) ltac:(lia)). lia.
    + rewrite Z.sub_0_r, u32_id by lia. apply uint_ceil; lia.
  - unfold depth. destruct (Z.eqb_spec r 0); [contradiction |]. destruct Ho as [-> | ->].
    + rewrite coord_low by lia. rewrite sb_low by lia. replace (n - r) with (n - 1 - r + 1) by lia. rewrite ceil_step by lia. reflexivity.
    + rewrite coord_high by lia. rewrite sb_high by lia. replace (n - r - 1) with (n - 1 - r) by lia. reflexivity.
Qed.

Lemma sb_range : forall o nb a, (o = 0 \/ o = 1) -> (nb = 0 -> o = 0) -> 0 <= nb -> 0 <= a < 2 ^ 31 -> 0 <= sb o nb a < 2 ^ 31.
Proof.
  intros o nb a Ho Hz Hn Ha. destruct Ho as [-> | ->]; [rewrite sb_low by lia | rewrite sb_high by lia].
  - pose proof (ceil_range a nb Hn ltac:(lia)). lia.
  - assert (nb <> 0) by (intros E; specialize (Hz E); discriminate). pose proof (ceil_range a (nb - 1) ltac:(lia) ltac:(lia)).
    set (z := cl a (nb - 1)) in *. pose proof (Z.div_pos z 2 ltac:(lia) ltac:(lia)). pose proof (Z.div_le_upper_bound z 2 z ltac:(lia) ltac:(lia)). lia.
Qed.
Lemma depth_bits : forall n r o, 0 <= r < n -> (o = 0 \/ o = 1) -> (r = 0 -> o = 0) -> depth n r = 0 -> o = 0.
Proof. intros n r o Hr Ho Hz E. unfold depth in E. destruct (Z.eqb_spec r 0); [auto | lia]. Qed.

(** A piece of a band with a wanted coefficient, or at the window's edge, is of
    interest. *)
Lemma axis_interest : forall n r o (w b : Z * Z), 0 <= r < n -> n <= 33 -> (o = 0 \/ o = 1) -> (r = 0 -> o = 0) -> 0 <= fst w < 2 ^ 31 -> 0 <= snd w < 2 ^ 31 ->
  0 <= fst b < 2 ^ 31 -> 0 < snd b < 2 ^ 31 -> fst b < sb o (depth n r) (snd w) + 2 -> sb o (depth n r) (fst w) - 2 < snd b ->
  interest_axis n r o w b = true.
Proof.
  intros n r o w b Hr Hn Ho Hz W0 W1 B0 B1 H1 H2. unfold interest_axis. rewrite !coord_sb by assumption.
  pose proof (depth_pos n r Hr) as DP. pose proof (depth_bits n r o Hr Ho Hz) as DB.
  pose proof (sb_range o (depth n r) (fst w) Ho DB DP W0) as R0. pose proof (sb_range o (depth n r) (snd w) Ho DB DP W1) as R1.
  set (t0 := sb o (depth n r) (fst w)) in *. set (t1 := sb o (depth n r) (snd w)) in *. unfold uint_adds.
  rewrite (u32_id (fst b)), (u32_id (snd b)) by lia. destruct (Z.ltb_spec t0 2) as [L | L]; [| rewrite (u32_id (t0 - 2)) by lia]; apply andb_true_iff; rewrite !Z.ltb_lt; lia.
Qed.

(** ** Precincts and code-blocks *)

Lemma precinct_is : forall psize size T S c r comp b k q, band_ok psize size T S c r comp b -> nth_error (b_precs b) k = Some q ->
  prec_rect (par T c) comp r (b_no b) (Z.of_nat k) = Some (prect q).
Proof.
  intros psize size T S c r comp b k q B Hq. pose proof (bo_precs _ _ _ _ _ _ _ _ B) as E. unfold band_precincts, make_band in E. unfold prec_rect. cbn [GeomModel.pdx GeomModel.pdy] in E.
  destruct (prec_axis (fst (GeomModel.res_rect comp (nres (par T c)) r)) (ex (par T c) r)) as [[sx pw] |]; [| discriminate].
  destruct (prec_axis (snd (GeomModel.res_rect comp (nres (par T c)) r)) (ey (par T c) r)) as [[sy ph] |]; [| discriminate].
  destruct (negb (pw =? 0) && ((2 ^ 32 - 1) / pw <? ph)); [discriminate E |]. cbv zeta in E. destruct ((2 ^ 32 - 1) / psize <? u32 (pw * ph)); [discriminate E |]. apply all_some_nth in E. destruct E as [L N]. rewrite map_length, upto_length in L.
  pose proof Hq as Hq2. apply N in Hq. rewrite nth_error_map in Hq.
  assert (Lk : (k < Z.to_nat (u32 (pw * ph)))%nat) by (rewrite <- L; apply nth_error_Some; congruence).
  rewrite upto_nth in Hq; [| unfold Ints.u32; apply Z.mod_pos_bound; lia | exact Lk]. cbn [option_map] in Hq. apply some_inj in Hq. unfold make_precinct in Hq. cbn [GeomModel.pdx GeomModel.pdy cblkw cblkh] in Hq.
  destruct (group_axis r sx (ex (par T c) r)) as [gx ex']. destruct (group_axis r sy (ey (par T c) r)) as [gy ey'].
  match type of Hq with context [let '(_, _) := blocks_axis ?a ?b in _] => destruct (blocks_axis a b) as [tlx w0] end.
  match type of Hq with context [let '(_, _) := blocks_axis ?a ?b in _] => destruct (blocks_axis a b) as [tly h0] end.
  cbv zeta in Hq. destruct ((2 ^ 32 - 1) / size <? u32 (w0 * h0)); [discriminate Hq |]. apply some_inj in Hq. subst q. reflexivity.
Qed.

Lemma block_in_precinct : forall psize size T S c r comp b k j q blk u v, band_ok psize size T S c r comp b -> nth_error (b_precs b) k = Some q -> nth_error (cblks q) j = Some blk ->
  inside blk u v -> inside (prect q) u v.
Proof.
  intros psize size T S c r comp b k j q blk u v B Hq Hj Hin.
  destruct (band_structure _ _ _ _ _ _ _ _ (bo_set _ _ _ _ _ _ _ _ B) (bo_precs _ _ _ _ _ _ _ _ B)) as (gx & ex & cx & pw & gy & ey & cy & ph & _ & _ & _ & _ & _ & _ & _ & N).
  destruct (N _ _ Hq) as (_ & _ & _ & P & _ & _ & _ & Nb). destruct (Nb _ _ Hj) as (_ & _ & _ & E). rewrite E in Hin. rewrite P. clear - Hin.
  unfold inside, GeomProofs.within, cell, block_axis in *. cbn [fst snd] in *. lia.
Qed.

Lemma precinct_in_band : forall psize size T S c r comp b k q, band_ok psize size T S c r comp b -> nth_error (b_precs b) k = Some q ->
  fst (fst (band_rect comp (nres (par T c)) r (b_no b))) <= fst (fst (prect q)) /\ snd (fst (prect q)) <= snd (fst (band_rect comp (nres (par T c)) r (b_no b))) /\
  fst (snd (band_rect comp (nres (par T c)) r (b_no b))) <= fst (snd (prect q)) /\ snd (snd (prect q)) <= snd (snd (band_rect comp (nres (par T c)) r (b_no b))).
Proof.
  intros psize size T S c r comp b k q B Hq.
  destruct (band_structure _ _ _ _ _ _ _ _ (bo_set _ _ _ _ _ _ _ _ B) (bo_precs _ _ _ _ _ _ _ _ B)) as (gx & ex & cx & pw & gy & ey & cy & ph & _ & _ & _ & _ & _ & _ & _ & N).
  destruct (N _ _ Hq) as (_ & _ & _ & P & _). rewrite P. clear. unfold precinct_axis. cbn [fst snd]. lia.
Qed.

(** ** Places in the plane *)

Lemma home_axes : forall comp n r b x y, extent (fst comp) -> extent (snd comp) -> 1 <= n <= 33 -> 0 <= r < n -> In b (band_numbers r) ->
  x - fst (fst (band_rect comp n r b)) + right_of comp n r b = place (fst comp) n r (ori_x r b) x /\
  y - fst (snd (band_rect comp n r b)) + below comp n r b = place (snd comp) n r (ori_y r b) y.
Proof.
  intros comp n r b x y Hx Hy Hn Hr Hb. rewrite (band_rect_sb comp n r b Hx Hy Hn Hr Hb). cbn [fst snd].
  assert (R : forall c, extent c -> 0 < r -> sb 0 (depth n r) (snd c) - sb 0 (depth n r) (fst c) = width (res_axis c (n - 1 - (r - 1)))).
  { intros c Hc H. destruct (res_axis_spec c (n - 1 - (r - 1)) Hc ltac:(lia)) as (A & B & _). unfold depth. destruct (Z.eqb_spec r 0); [lia |]. rewrite !sb_low by lia. unfold width.
    replace (n - 1 - (r - 1)) with (n - r) in * by lia. assert (P : 0 < 2 ^ (n - r)) by (apply Z.pow_pos_nonneg; lia).
    rewrite (MathProps.ceil_unique (snd c) (2 ^ (n - r)) (snd (res_axis c (n - r))) (cl (snd c) (n - r)) P B) by (rewrite ceildivpow2_eq by lia; apply cdiv_ceil, P).
    rewrite (MathProps.ceil_unique (fst c) (2 ^ (n - r)) (fst (res_axis c (n - r))) (cl (fst c) (n - r)) P A) by (rewrite ceildivpow2_eq by lia; apply cdiv_ceil, P). reflexivity. }
  unfold place, right_of, below, ori_x, ori_y, orient, band_numbers, GeomModel.res_rect in *. cbn [fst snd]. destruct (Z.eqb_spec r 0) as [E | E].
  - destruct Hb as [<- | []]. change (Z.odd 0) with false. change (2 <=? 0) with false. change (Z.land 0 1) with 0. change (Z.shiftr 0 1) with 0. change (0 =? 1) with false. cbn iota. split; lia.
  - rewrite !R by (assumption || lia). destruct Hb as [<- | [<- | [<- | []]]]; split; reflexivity.
Qed.
Lemma home_place : forall comp n r b x y, extent (fst comp) -> extent (snd comp) -> 1 <= n <= 33 -> 0 <= r < n -> In b (band_numbers r) ->
  home comp n r b x y = place (snd comp) n r (ori_y r b) y * width (fst comp) + place (fst comp) n r (ori_x r b) x.
Proof.
  intros comp n r b x y Hx Hy Hn Hr Hb. unfold home. destruct (home_axes comp n r b x y Hx Hy Hn Hr Hb) as [A B]. rewrite A, B. reflexivity.
Qed.

(** Different coefficients have different places. *)
Lemma place_axis_lt : forall c n r o u, 0 <= fst c <= snd c -> 0 <= r < n -> (o = 0 \/ o = 1) -> (r = 0 -> o = 0) ->
  sb o (depth n r) (fst c) <= u < sb o (depth n r) (snd c) -> 0 <= place c n r o u < cl (snd c) (n - 1 - r) - cl (fst c) (n - 1 - r).
Proof.
  intros c n r o u Hc Hr Ho Hz Hu. pose proof (place_range c n r o u Hc Hr Ho Hz ltac:(lia)). pose proof (place_range c n r o (u + 1) Hc Hr Ho Hz ltac:(lia)).
  assert (place c n r o (u + 1) = place c n r o u + 1) by (unfold place; lia). lia.
Qed.

Definition in_band (comp : rect) (n r o p u v : Z) : Prop :=
  sb o (depth n r) (fst (fst comp)) <= u < sb o (depth n r) (snd (fst comp)) /\ sb p (depth n r) (fst (snd comp)) <= v < sb p (depth n r) (snd (snd comp)).

Lemma place_inj : forall comp n, 0 <= fst (fst comp) <= snd (fst comp) -> 0 <= fst (snd comp) <= snd (snd comp) -> forall r o p u v r' o' p' u' v',
  0 <= r < n -> 0 <= r' < n -> band_bits r o p -> band_bits r' o' p' -> in_band comp n r o p u v -> in_band comp n r' o' p' u' v' ->
  place (fst comp) n r o u = place (fst comp) n r' o' u' -> place (snd comp) n r p v = place (snd comp) n r' p' v' -> r = r' /\ o = o' /\ p = p' /\ u = u' /\ v = v'.
Proof.
  intros comp n Cx Cy.
  assert (LT : forall r o p u v r' o' p' u' v', 0 <= r < r' -> r' < n -> band_bits r o p -> band_bits r' o' p' -> in_band comp n r o p u v -> in_band comp n r' o' p' u' v' ->
    place (fst comp) n r o u = place (fst comp) n r' o' u' -> place (snd comp) n r p v = place (snd comp) n r' p' v' -> False).
  { intros r o p u v r' o' p' u' v' H1 H2 B B' [Iu Iv] [Iu' Iv'] E1 E2. destruct (WindowTile.bits (fun _ => true) comp n n r o p B) as (Bo & Bp & Bzo & Bzp & _).
    pose proof (place_axis_lt (fst comp) n r o u Cx ltac:(lia) Bo Bzo Iu). pose proof (place_axis_lt (snd comp) n r p v Cy ltac:(lia) Bp Bzp Iv).
    unfold band_bits in B'. destruct (Z.eqb_spec r' 0); [lia |]. destruct B' as (Bo' & Bp' & N).
    assert (X : o' = 1 \/ p' = 1) by lia. destruct X as [-> | ->].
    - pose proof (band_outside (fun _ => true) comp n n (fst comp) r' 1 u' r Cx ltac:(lia) ltac:(lia) eq_refl ltac:(lia)). lia.
    - pose proof (band_outside (fun _ => true) comp n n (snd comp) r' 1 v' r Cy ltac:(lia) ltac:(lia) eq_refl ltac:(lia)). lia. }
  intros r o p u v r' o' p' u' v' Hr Hr' B B' I I' E1 E2. destruct (Z.lt_trichotomy r r') as [L | [<- | L]].
  - exfalso. eapply (LT r o p u v r' o' p' u' v'); eassumption || lia.
  - destruct (WindowTile.bits (fun _ => true) comp n n r o p B) as (Bo & Bp & Bzo & Bzp & _). destruct (WindowTile.bits (fun _ => true) comp n n r o' p' B') as (Bo' & Bp' & Bzo' & Bzp' & _). destruct I as [Iu Iv], I' as [Iu' Iv'].
    assert (A : forall c o o' u u', (o = 0 \/ o = 1) -> (o' = 0 \/ o' = 1) -> sb o (depth n r) (fst c) <= u < sb o (depth n r) (snd c) -> sb o' (depth n r) (fst c) <= u' < sb o' (depth n r) (snd c) ->
      place c n r o u = place c n r o' u' -> o = o' /\ u = u').
    { clear. intros c o o' u u' [-> | ->] [-> | ->] H H' E; unfold place in E; cbn [Z.eqb Pos.eqb] in E; split; lia. }
    destruct (A (fst comp) o o' u u' Bo Bo' Iu Iu' E1) as [-> ->]. destruct (A (snd comp) p p' v v' Bp Bp' Iv Iv' E2) as [-> ->]. auto.
  - exfalso. eapply (LT r' o' p' u' v' r o p u v); try eassumption; try lia; symmetry; assumption.
Qed.
