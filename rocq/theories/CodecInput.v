(** The planes of a tile (C63): what the encoder gets of the image. *)

From Coq Require Import ZArith List Bool Arith Lia ZifyNat.
From Verif Require Import I32 Ints Mem MathModel MathProps CioModel GeomModel GeomProofs GeomCover GeomProps PiModel PiSpec T2PacketModel CblkModel PacketsModel
  TileModel TileGeom TileProofs ShiftModel ShiftProps SampleModel SampleProofs TileDataModel TileDataProps AssembleModel AssembleProps PartModel PartSpec PartWrite
  HdrModel HdrSpec HdrRun CodecModel CodecProofs.
Import ListNotations.
Local Open Scope Z_scope.

(** With several tiles the samples go through bytes: the samples must be unsigned
    or have more than 16 bits ([c41_signed_refuted]), and the rows of the image be
    as long as the component is wide ([c41_row_width_refuted]). *)
Definition through_bytes (s : siz) : Prop :=
  forall c F, 0 <= c < numcomps s -> frame s c = Some F ->
    let q := look comp0 (comps s) c in
    (c_sgnd q = 0 \/ 16 < c_prec q) /\ ceil_of (x1 s - x0 s) (c_dx q) (width (fst F)) /\ width (fst F) * width (snd F) < 2 ^ 32.
(** The samples of the image are in their range. *)
Definition image_ok (s : siz) (image : planes_t) : Prop :=
  forall c F x y, 0 <= c < numcomps s -> frame s c = Some F -> inside F x y ->
    let q := look comp0 (comps s) c in sample (negb (c_sgnd q =? 0)) (c_prec q) (image c (place_in F x y)).

Lemma flat_nth : forall (f : Z -> Z -> Z) (w : Z) (h : nat) i j, 0 <= i < w -> 0 <= j < Z.of_nat h ->
  nth (Z.to_nat (j * w + i)) (flat_map (fun j => map (f j) (TileDataModel.upto w)) (map Z.of_nat (seq 0 h))) 0 = f j i.
Proof.
  intros f w h i j Hi. enough (G : forall h k j, 0 <= j < Z.of_nat h ->
    nth (Z.to_nat (j * w + i)) (flat_map (fun j => map (f j) (TileDataModel.upto w)) (map Z.of_nat (seq k h))) 0 = f (Z.of_nat k + j) i).
  { intros Hj. rewrite (G h 0%nat j Hj). f_equal. }
  clear j h. induction h as [| h IH]; intros k j Hj; [lia |]. cbn [seq map flat_map].
  assert (L : length (map (f (Z.of_nat k)) (TileDataModel.upto w)) = Z.to_nat w) by (rewrite map_length, TileDataProps.upto_length; reflexivity).
  destruct (Z.eq_dec j 0) as [-> | Hn].
  - rewrite app_nth1 by (rewrite L; lia). rewrite (nth_indep _ 0 (f (Z.of_nat k) 0)) by (rewrite L; lia). rewrite map_nth. f_equal; [lia |].
    unfold TileDataModel.upto. rewrite (nth_indep _ 0 (Z.of_nat 0)) by (rewrite map_length, seq_length; lia). rewrite map_nth, seq_nth by lia. lia.
  - rewrite app_nth2 by (rewrite L; nia). rewrite L. replace (Z.to_nat (j * w + i) - Z.to_nat w)%nat with (Z.to_nat ((j - 1) * w + i)) by nia.
    rewrite IH by lia. f_equal. lia.
Qed.

Lemma sample_nth : forall p i j, 0 <= i < pw p -> 0 <= j < ph p -> nth (Z.to_nat (j * pw p + i)) (samples p) 0 = src p (j * (pw p + pstride p) + i).
Proof.
  intros p i j Hi Hj. unfold samples. unfold TileDataModel.upto at 2.
  apply (flat_nth (fun j i => src p (j * (pw p + pstride p) + i)) (pw p) (Z.to_nat (ph p)) i j Hi). lia.
Qed.

Lemma samples_in : forall p v, 0 <= pw p -> 0 <= ph p -> In v (samples p) -> exists i j, 0 <= i < pw p /\ 0 <= j < ph p /\ v = src p (j * (pw p + pstride p) + i).
Proof.
  intros p v Hw Hh I. unfold samples in I. apply in_flat_map in I. destruct I as (j & Ij & I). apply in_map_iff in I. destruct I as (i & <- & Ii).
  unfold TileDataModel.upto in Ij, Ii. apply in_map_iff in Ij, Ii. destruct Ij as (b & <- & Hb), Ii as (a & <- & Ha). apply in_seq in Ha, Hb.
  exists (Z.of_nat a), (Z.of_nat b). repeat split; lia.
Qed.

(** A component of the tile, as the encoder reads it. *)
Lemma plane_ok : forall s t tw th i T image c, framed s tw th -> length (t_comps t) = length (comps s) -> 0 <= i < tw * th -> tile_of s t tw i = Some T ->
  through_bytes s -> image_ok s image -> 0 <= c < numcomps s ->
  (forall comp, tile_comp T c = Some comp -> 1 <= width (fst comp) /\ 1 <= width (snd comp)) ->
  exists p F comp, plane_of s T image c = Some p /\ frame s c = Some F /\ tile_comp T c = Some comp /\ pw p = width (fst comp) /\ ph p = width (snd comp) /\ pw p * ph p < 2 ^ 32 /\ faithful p /\
    forall x y, inside comp x y -> src p ((y - fst (snd comp)) * (pw p + pstride p) + (x - fst (fst comp))) = image c (place_in F x y).
Proof.
  intros s t tw th i T image c HF L Hi ET HB HI Hc NE.
  destruct (tile_in_frame s t tw th i T c HF L Hi ET Hc) as (F & comp & EF & EC & _ & X1 & X2 & X3 & Y1 & Y2 & Y3 & C1 & C2 & C3 & C4).
  destruct (NE comp EC) as [Nw Nh]. destruct (HB c F Hc EF) as (SG & RW & AR). pose proof HF as (Hh & B1 & B2 & HC & _). pose proof (comp_at s c HC Hc) as (P1 & P2 & Dx & Dy).
  destruct Hh as (U1 & U2 & U3 & U4 & _). destruct (header_axes _ _ _ _ _ _ (proj1 HF)) as (_ & _ & _ & Ax & Ay). pose proof (proj1 HF) as (V1 & V2 & V3 & V4 & V5 & V6 & V7 & V8 & _). cbn [fst snd] in *.
  apply siz_axis_spec in Ax; try assumption. apply siz_axis_spec in Ay; try assumption. destruct Ax as (_ & Ax & _), Ay as (_ & Ay & _). unfold is_u32 in *. clear V1 V2 V3 V4 V5 V6 V7 V8.
  set (q := look comp0 (comps s) c) in *. destruct F as [[fx0 fx1] [fy0 fy1]], comp as [[cx0 cx1] [cy0 cy1]]. unfold width in *. cbn [fst snd] in *.
  destruct (c41_tile_position (x0 s) (x1 s) (y0 s) (c_dx q) (c_dy q) cx0 cx1 cy0) as (ox & oy & iw & stride & off & O1 & O2 & O3 & ED & PO); try lia.
  { exists fx0, fy0, (fx1 - fx0). split; [exact C1 |]. split; [exact C3 |]. split; [exact RW |]. split; [lia |]. split; [lia |]. split; [lia |].
    assert ((cy0 - fy0 + 1) * (fx1 - fx0) <= (fx1 - fx0) * (fy1 - fy0)) by (clear - X1 X2 Y1 Y2 Nw Nh; nia). lia. }
  assert (ox = fx0) by (eapply ceil_unique; [| exact O1 | exact C1]; lia). assert (oy = fy0) by (eapply ceil_unique; [| exact O2 | exact C3]; lia).
  assert (iw = fx1 - fx0) by (eapply ceil_unique; [| exact O3 | exact RW]; lia). subst ox oy iw.
  unfold plane_of. rewrite EC. fold q. cbn [fst snd]. rewrite ED. eexists. exists ((fx0, fx1), (fy0, fy1)), ((cx0, cx1), (cy0, cy1)). split; [reflexivity |]. cbn [pw ph prec sgnd pstride src]. split; [exact EF |]. split; [reflexivity |]. unfold width. cbn [fst snd]. split; [reflexivity |]. split; [reflexivity |].
  assert (AT : (cx1 - cx0) * (cy1 - cy0) < 2 ^ 32).
  { assert ((cx1 - cx0) * (cy1 - cy0) <= (fx1 - fx0) * (fy1 - fy0)) by (clear - X1 X2 Y1 Y2 Nw Nh; nia). lia. }
  split; [exact AT |].
  assert (SRC : forall x y, inside ((cx0, cx1), (cy0, cy1)) x y -> image c (off + ((y - cy0) * (cx1 - cx0 + stride) + (x - cx0))) = image c (place_in ((fx0, fx1), (fy0, fy1)) x y)).
  { intros x y [Hx Hy]. f_equal. rewrite PO. unfold place_in, width. cbn [fst snd]. f_equal; f_equal; lia. }
  split; [| exact SRC].
  unfold faithful. cbn [prec pw ph sgnd]. split; [lia |]. split; [lia |]. split; [lia |].
  assert (RG : forall v, In v (samples (mkPlane (c_prec q) (c_sgnd q) (cx1 - cx0) (cy1 - cy0) stride (fun k => image c (off + k)))) -> sample (negb (c_sgnd q =? 0)) (c_prec q) v).
  { intros v I. apply samples_in in I; cbn [pw ph]; try lia. destruct I as (a & b & Ha & Hb & ->). cbn [pw ph src pstride] in *.
    assert (IN : inside ((cx0, cx1), (cy0, cy1)) (cx0 + a) (cy0 + b)) by (split; unfold GeomProofs.within; cbn [fst snd]; lia).
    specialize (SRC _ _ IN). replace (cy0 + b - cy0) with b in SRC by lia. replace (cx0 + a - cx0) with a in SRC by lia. rewrite SRC.
    apply (HI c _ (cx0 + a) (cy0 + b) Hc EF). destruct IN as [IN1 IN2]. unfold inside, GeomProofs.within in *. cbn [fst snd] in *. lia. }
  assert (P31 : 2 ^ c_prec q <= 2 ^ 31) by (apply Z.pow_le_mono_r; lia). assert (P30 : 1 <= 2 ^ (c_prec q - 1) <= 2 ^ 30) by (split; [pose proof (Z.pow_pos_nonneg 2 (c_prec q - 1)); lia | apply Z.pow_le_mono_r; lia]).
  destruct SG as [SG | SG].
  - left. split; [exact SG |]. apply Forall_forall. intros v I. apply RG in I. rewrite SG in I. cbn in I. unfold sample, lowest, highest in I. unfold in_i32. lia.
  - right. split; [exact SG |]. apply Forall_forall. intros v I. apply RG in I. unfold sample, lowest, highest in I. unfold in_i32. destruct (negb _); lia.
Qed.

Lemma total_small : forall ps, Forall faithful ps -> Forall (fun p => pw p * ph p < 2 ^ 32) ps -> 0 <= total ps <= Z.of_nat (length ps) * 2 ^ 34.
Proof.
  intros ps F G. unfold total. induction F as [| p ps H F IH]; cbn [fold_right length]; [lia |]. inversion G; subst. specialize (IH H3).
  destruct H as (P & W & Hh & _). rewrite c41_sample_bytes by lia. set (a := fold_right _ _ _) in *. clearbody a.
  assert (0 <= pw p * ph p) by (clear - W Hh; nia). set (m := pw p * ph p) in *. clearbody m. destruct (prec p <=? 8), (prec p <=? 16); lia.
Qed.

(** What the encoder gets: the samples of the image in the tile. *)
Lemma input_ok : forall big s t tw th i T image dest, framed s tw th -> length (t_comps t) = length (comps s) -> 0 <= i < tw * th -> tile_of s t tw i = Some T ->
  image_ok s image -> (1 < tw * th -> through_bytes s) ->
  (forall c comp, 0 <= c < numcomps s -> tile_comp T c = Some comp -> 1 <= width (fst comp) /\ 1 <= width (snd comp)) ->
  (1 < tw * th -> forall ps, all_some (map (plane_of s T image) (GeomModel.upto (numcomps s))) = Some ps -> length dest = Z.to_nat (input_size ps)) ->
  exists d, tile_input big s T (tw * th) image dest = Some d /\
  forall c, 0 <= c < numcomps s -> exists F comp, frame s c = Some F /\ tile_comp T c = Some comp /\
    forall x y, inside comp x y -> inside F x y /\ d c (place_in comp x y) = image c (place_in F x y).
Proof.
  intros big s t tw th i T image dest HF L Hi ET HI HB NE LD.
  assert (GE : forall c, 0 <= c < numcomps s -> exists F comp, frame s c = Some F /\ tile_comp T c = Some comp /\
    comp_rect ((t_x0 T, t_x1 T), (t_y0 T, t_y1 T)) (c_dx (look comp0 (comps s) c)) (c_dy (look comp0 (comps s) c)) = Some comp /\ forall x y, inside comp x y -> inside F x y).
  { intros c Hc. destruct (tile_in_frame s t tw th i T c HF L Hi ET Hc) as (F & comp & EF & EC & ECR & X1 & X2 & X3 & Y1 & Y2 & Y3 & _).
    exists F, comp. do 3 (split; [assumption |]). intros x y [A B]. unfold inside, GeomProofs.within in *. lia. }
  unfold tile_input. destruct (Z.eqb_spec (tw * th) 1) as [N1 | N1].
  - exists image. split; [reflexivity |]. intros c Hc. destruct (GE c Hc) as (F & comp & EF & EC & ECR & IN). exists F, comp. split; [exact EF |]. split; [exact EC |]. intros x y Hxy. split; [apply IN, Hxy |].
    destruct (tile_of_shape s t tw i T L ET) as (ER & _). destruct (single_tile s tw th i _ _ HF N1 Hi ER) as (_ & _ & Ex & Ey).
    unfold frame, extent_of in EF. rewrite Ex, Ey in ECR. rewrite EF in ECR. apply some_inj in ECR. subst comp. reflexivity.
  - assert (NB : 1 < tw * th) by lia. specialize (HB NB). specialize (LD NB).
    destruct (all_some (map (plane_of s T image) (GeomModel.upto (numcomps s)))) as [ps |] eqn:EP.
    2: { exfalso. revert EP. apply all_some_total. intros c I. unfold GeomModel.upto in I. apply in_map_iff in I. destruct I as (k & <- & Hk). apply in_seq in Hk. unfold numcomps in Hk.
      destruct (plane_ok s t tw th i T image (Z.of_nat k) HF L Hi ET HB HI) as (p & _ & _ & E & _); [unfold numcomps; lia | intros comp; apply NE; unfold numcomps; lia |]. rewrite E. discriminate. }
    specialize (LD ps eq_refl).
    pose proof (all_some_map _ _ _ EP) as F2.
    assert (PL : length ps = Z.to_nat (numcomps s)) by (rewrite <- (TileProofs.forall2_len _ _ _ F2); apply GeomCover.upto_length).
    assert (PA : forall k p, nth_error ps k = Some p -> plane_of s T image (Z.of_nat k) = Some p /\ 0 <= Z.of_nat k < numcomps s).
    { intros k p Hk. assert (Hl : (k < length ps)%nat) by (apply nth_error_Some; congruence). split; [| lia].
      refine (forall2_nth _ _ _ F2 k (Z.of_nat k) p _ Hk). apply upto_nth; [unfold numcomps; lia | lia]. }
    assert (FA : Forall faithful ps /\ Forall (fun p => pw p * ph p < 2 ^ 32) ps).
    { split; apply Forall_forall; intros p I; apply In_nth_error in I; destruct I as (k & Hk); destruct (PA k p Hk) as (E1 & E2);
      destruct (plane_ok s t tw th i T image _ HF L Hi ET HB HI E2 (fun comp => NE _ comp E2)) as (p' & _ & _ & E3 & _ & _ & _ & _ & A & B & _);
      rewrite E1 in E3; apply some_inj in E3; subst p'; assumption. }
    destruct FA as [FA FB]. pose proof (total_small ps FA FB) as TS. pose proof HF as (_ & _ & _ & _ & NC).
    destruct (c41_round_trip big ps dest FA) as (bytes & E1 & E2); [assert (Z.of_nat (length ps) <= 16384) by lia; nia | exact LD |].
    rewrite E1, E2. eexists. split; [reflexivity |]. intros c Hc. destruct (GE c Hc) as (F & comp & EF & EC & ECR & IN). exists F, comp. split; [exact EF |]. split; [exact EC |]. intros x y Hxy. split; [apply IN, Hxy |]. cbv beta.
    destruct (nth_error ps (Z.to_nat c)) as [p |] eqn:Ep; [| apply nth_error_None in Ep; lia].
    destruct (PA _ _ Ep) as (E3 & _). rewrite Z2Nat.id in E3 by lia.
    destruct (plane_ok s t tw th i T image c HF L Hi ET HB HI Hc (fun comp => NE _ comp Hc)) as (p' & F' & comp' & E4 & EF' & EC' & W & Hh & _ & _ & SRC).
    rewrite E3 in E4. apply some_inj in E4. subst p'.
    rewrite EF in EF'. apply some_inj in EF'. subst F'. rewrite EC in EC'. apply some_inj in EC'. subst comp'.
    assert (LK : look None (map (fun p => Some (samples p)) ps) c = Some (samples p)).
    { unfold look. apply nth_error_nth. rewrite nth_error_map, Ep. reflexivity. }
    rewrite LK. rewrite <- (SRC x y Hxy). unfold place_in. rewrite <- W. destruct Hxy as [A B]. unfold GeomProofs.within in A, B. apply sample_nth; rewrite ?W, ?Hh; unfold width; lia.
Qed.
