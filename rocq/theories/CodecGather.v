(** The output image from its tiles (C63). *)

From Coq Require Import ZArith List Bool Arith Lia ZifyNat Permutation.
From Verif Require Import I32 Ints Mem MathModel MathProps CioModel GeomModel GeomProofs GeomCover GeomProps PiModel PiSpec PiProps TileModel TileGeom TileProofs
  SampleModel TileDataModel AssembleModel AssembleProps PartModel PartSpec PartWrite HdrModel HdrSpec HdrRun CodecModel CodecProofs CodecInput CodecTiles.
Import ListNotations.
Local Open Scope Z_scope.

Lemma all_some_known : forall {A B} (f : A -> option B) (g : A -> B) l, (forall a, In a l -> f a = Some (g a)) -> all_some (map f l) = Some (map g l).
Proof.
  intros A B f g. induction l as [| a l IH]; intros H; cbn [map all_some]; [reflexivity |].
  rewrite (H a (or_introl eq_refl)), IH by (intros b I; apply H; right; exact I). reflexivity.
Qed.

Lemma tiles_in : forall n i, In i (tiles n) -> 0 <= i < n.
Proof. intros n i I. unfold tiles in I. apply in_map_iff in I. destruct I as (k & <- & Hk). apply in_seq in Hk. lia. Qed.

(** The component [c] of the output image is the frame [F], filled with [image]. *)
Definition shows (image : planes_t) (c : Z) (F : rect) (o : output) : Prop :=
  ox0 o = fst (fst F) /\ oy0 o = fst (snd F) /\ factor o = 0 /\ ow o = width (fst F) /\ oh o = width (snd F) /\
  exists m, odata o = Some m /\ forall x y, inside F x y -> m (place_in F x y) = image c (place_in F x y).

Lemma gathered : forall s t tw th junk (res : Z -> tile * planes_t) image c, framed s tw th -> length (t_comps t) = length (comps s) -> 0 <= c < numcomps s ->
  (forall i, 0 <= i < tw * th -> tile_of s t tw i = Some (fst (res i)) /\ 1 <= nres (par (fst (res i)) c) /\
    exists F comp, frame s c = Some F /\ tile_comp (fst (res i)) c = Some comp /\ 1 <= width (fst comp) /\ 1 <= width (snd comp) /\
      forall x y, inside comp x y -> inside F x y /\ snd (res i) c (place_in comp x y) = image c (place_in F x y)) ->
  exists F o, frame s c = Some F /\ gather s tw th junk (map (fun i => (i, res i)) (tiles (tw * th))) c = Some o /\ shows image c F o.
Proof.
  intros s t tw th junk res image c HF L Hc H. destruct (frame_some s tw th c HF Hc) as (F & EF & B1 & B2 & B3 & B4 & C1 & C2 & C3 & C4). exists F.
  pose proof (update_frame s tw th c F HF Hc EF) as EU. unfold gather. rewrite EU. cbv beta iota. cbn [ox0 oy0 factor ow oh].
  pose proof HF as (HH & Hx & Hy & HC & _). destruct (header_axes _ _ _ _ _ _ HH) as (W1 & W2 & W3 & _). pose proof (comp_at s c HC Hc) as (_ & _ & Dx & Dy). set (q := look comp0 (comps s) c) in *.
  destruct (whole_tile s tw th) eqn:EW.
  - unfold whole_tile in EW. rewrite !andb_true_iff, !Z.eqb_eq in EW. destruct EW as (((((((E1 & E2) & _) & _) & _) & _) & _) & _).
    assert (NB : tw * th = 1) by lia. assert (E0 : tiles (tw * th) = [0]) by (rewrite NB; reflexivity). rewrite E0. cbn [map].
    destruct (H 0 ltac:(lia)) as (ET & _ & F' & comp & EF' & EC & _ & _ & HS). rewrite EF in EF'. apply some_inj in EF'. subst F'.
    destruct (tile_in_frame s t tw th 0 _ c HF L ltac:(lia) ET Hc) as (F' & comp' & EF' & EC' & ECR & _). rewrite EC in EC'. apply some_inj in EC'. subst comp'.
    destruct (tile_of_shape s t tw 0 _ L ET) as (ER & _). destruct (single_tile s tw th 0 _ _ HF NB ltac:(lia) ER) as (_ & _ & Ex & Ey). rewrite Ex, Ey in ECR.
    assert (comp = F) by (unfold frame, extent_of in EF; congruence). subst comp.
    destruct (res 0) as [T0 d0] eqn:ER0. cbn [fst snd] in *. eexists. split; [exact EF |]. split; [reflexivity |].
    unfold shows. cbn [ox0 oy0 factor ow oh odata]. repeat (split; [reflexivity |]). exists (d0 c). split; [reflexivity |]. intros x y I. apply HS, I.
  - set (comp_no := fun i => match tile_comp (fst (res i)) c with Some r => r | None => ((0, 0), (0, 0)) end).
    set (tc := fun i => AssembleModel.mkTile (fst (fst (comp_no i))) (snd (fst (comp_no i))) (fst (snd (comp_no i))) (snd (snd (comp_no i))) (width (fst (comp_no i))) (Some (snd (res i) c))).
    assert (RC : forall i, 0 <= i < tw * th -> exists comp, tile_comp (fst (res i)) c = Some comp /\ comp_no i = comp /\
      comp_rect ((t_x0 (fst (res i)), t_x1 (fst (res i))), (t_y0 (fst (res i)), t_y1 (fst (res i)))) (c_dx q) (c_dy q) = Some comp /\
      0 <= fst (fst comp) /\ fst (fst comp) < snd (fst comp) < 2 ^ 31 /\ 0 <= fst (snd comp) /\ fst (snd comp) < snd (snd comp) < 2 ^ 31 /\
      (forall x y, inside comp x y -> snd (res i) c (place_in comp x y) = image c (place_in F x y))).
    { intros i Hi. destruct (H i Hi) as (ET & _ & F' & comp & EF' & EC & N1 & N2 & HS). rewrite EF in EF'. apply some_inj in EF'. subst F'.
      destruct (tile_in_frame s t tw th i _ c HF L Hi ET Hc) as (F' & comp' & EF' & EC' & ECR & X1 & X2 & X3 & Y1 & Y2 & Y3 & _). rewrite EC in EC'. apply some_inj in EC'. subst comp'.
      unfold width in N1, N2. exists comp. split; [exact EC |]. split; [unfold comp_no; rewrite EC; reflexivity |]. split; [exact ECR |]. do 4 (split; [lia |]). intros x y I. apply HS, I. }
    rewrite (map_map (fun i => (i, res i)) _ (tiles (tw * th))). cbn [fst snd].
    rewrite (all_some_known _ tc).
    2: { intros i I. apply tiles_in in I. destruct (RC i I) as (comp & EC & EN & _ & G1 & G2 & G3 & G4 & _). destruct (H i I) as (_ & NR & _).
         unfold decoded_comp. rewrite EC. unfold tc. rewrite EN. unfold GeomModel.res_rect. set (n := nres _) in *. replace (n - 1 - (n - 1)) with 0 by lia.
         cbn [fst snd]. rewrite !whole_axis by lia. unfold width. rewrite i32_id by (unfold in_i32; lia). rewrite u32_id by lia. reflexivity. }
    rewrite map_map.
    destruct (H 0 ltac:(nia)) as (ET0 & _). destruct (RC 0 ltac:(nia)) as (comp0' & EC0 & _ & _ & G1 & G2 & G3 & G4 & _).
    destruct (tile_in_frame s t tw th 0 _ c HF L ltac:(nia) ET0 Hc) as (F' & comp' & EF' & EC' & _ & X1 & X2 & X3 & Y1 & Y2 & Y3 & _). rewrite EF in EF'. apply some_inj in EF'. subst F'. rewrite EC0 in EC'. apply some_inj in EC'. subst comp'.
    set (o := mkOutput (fst (fst F)) (fst (snd F)) 0 (width (fst F)) (width (snd F)) None).
    assert (OX : X0 o = fst (fst F)) by (unfold X0; cbn [ox0 factor o]; apply whole_pow; unfold is_u32; lia).
    assert (OY : Y0 o = fst (snd F)) by (unfold Y0; cbn [oy0 factor o]; apply whole_pow; unfold is_u32; lia).
    assert (OR : out_rect o = F). { unfold out_rect. rewrite OX, OY. cbn [ow oh o]. destruct F as [[a b] [e f]]. unfold width. cbn [fst snd]. do 2 f_equal; lia. }
    destruct (c42_image (x0 s, x1 s) (y0 s, y1 s) (tx0 s, tdx s) (ty0 s, tdy s) tw th (c_dx q) (c_dy q) 0 o F (map (fun i => (i, (junk c, tc i))) (tiles (tw * th))))
      as (m & EM & PX); try assumption; try (cbn [snd]; lia); try lia.
    + rewrite OR. destruct F as [a b]. cbn [fst snd] in *. rewrite !whole_axis by lia. reflexivity.
    + cbn [ow o]. unfold width. lia.
    + cbn [oh o]. unfold width. lia.
    + rewrite map_map. cbn [fst]. rewrite map_id. apply Permutation_refl.
    + apply Forall_forall. intros nt I. apply in_map_iff in I. destruct I as (i & <- & I). apply tiles_in in I. cbn [fst snd]. destruct (RC i I) as (comp & EC & EN & ECR & K1 & K2 & K3 & K4 & _).
      destruct (H i I) as (ET & _). destruct (tile_of_shape s t tw i _ L ET) as (ER & _).
      unfold tc. cbn [rx0 rx1 stride tdata]. rewrite EN. split; [| split; [unfold width; lia | discriminate]].
      exists ((t_x0 (fst (res i)), t_x1 (fst (res i))), (t_y0 (fst (res i)), t_y1 (fst (res i)))), comp. split; [exact ER |]. split; [exact ECR |].
      unfold tile_rect_of. cbn [rx0 rx1 ry0 ry1]. destruct comp as [[a b] [e f]]. cbn [fst snd] in *. rewrite !whole_axis by (cbn [fst snd]; lia). reflexivity.
    + rewrite (map_map (fun i => (i, (junk c, tc i)))) in EM. cbn [snd] in EM. rewrite EM. eexists. split; [exact EF |]. split; [reflexivity |].
      unfold shows. cbn [ox0 oy0 factor ow oh odata]. repeat (split; [reflexivity |]). exists m. split; [reflexivity |]. intros x y I. rewrite OR in PX.
      destruct (PX x y I) as (no & jk & t1 & src & r & IN & TD & TR & IR & EQ). apply in_map_iff in IN. destruct IN as (i & EI & IN). apply tiles_in in IN. injection EI as -> <- <-.
      destruct (RC no IN) as (comp & EC & EN & ECR & K1 & K2 & K3 & K4 & HS). destruct (H no IN) as (ET & _). destruct (tile_of_shape s t tw no _ L ET) as (ER & _).
      rewrite ER in TR. apply some_inj in TR. subst r. unfold tc in TD. cbn [tdata] in TD. apply some_inj in TD. subst src.
      destruct (c28_tiles_exist _ _ _ _ _ _ no HH ltac:(cbn [snd]; lia) ltac:(cbn [snd]; lia) IN) as (r & Er & Lx & Ly & Inn). rewrite ER in Er. apply some_inj in Er. subst r. cbn [fst snd] in Lx, Ly.
      assert (U0 := HH). destruct U0 as (U1 & U2 & U3 & U4 & _). cbn [fst snd] in *. unfold is_u32 in *.
      set (T := fst (res no)) in *.
      assert (I1 : inside ((x0 s, x1 s), (y0 s, y1 s)) (t_x0 T) (t_y0 T)) by (apply Inn; split; unfold GeomProofs.within; cbn [fst snd]; lia).
      assert (I2 : inside ((x0 s, x1 s), (y0 s, y1 s)) (t_x1 T - 1) (t_y1 T - 1)) by (apply Inn; split; unfold GeomProofs.within; cbn [fst snd]; lia).
      unfold inside, GeomProofs.within in I1, I2. cbn [fst snd] in I1, I2.
      destruct (comp_rect_ceil (t_x0 T, t_x1 T) (t_y0 T, t_y1 T) (c_dx q) (c_dy q) comp) as (D1 & D2 & D3 & D4); cbn [fst snd]; try lia; try assumption. cbn [fst snd] in *.
      assert (IC : inside comp x y).
      { unfold inside, GeomProofs.within in IR |- *. cbn [fst snd] in IR. rewrite Z.pow_0_r, !Z.mul_1_r in IR. unfold ceil_of in D1, D2, D3, D4. clear - IR D1 D2 D3 D4 Dx Dy. nia. }
      rewrite <- (HS x y IC). unfold pixel in EQ. rewrite OX, OY in EQ. cbn [ow o] in EQ. unfold place_in at 1. rewrite EQ. unfold tile_pixel, tc. cbn [ry0 rx0 stride]. rewrite EN. reflexivity.
Qed.
