(** The output image from the tiles of the area (C67). *)

From Coq Require Import ZArith List Bool Arith Lia ZifyNat.
From Verif Require Import I32 Ints Mem MathModel MathProps CioModel GeomModel GeomProofs GeomCover GeomProps PiModel PiSpec PiProps TileModel TileGeom TileProofs
  SampleModel TileDataModel AssembleModel AssembleProps PartModel PartSpec PartWrite HdrModel HdrSpec HdrRun CodecModel CodecProofs CodecInput CodecTiles CodecGather RegionModel RegionAxis RegionTiles.
From Verif Require WindowProps WindowModel AreaModel AreaProofs.
Import ListNotations.
Local Open Scope Z_scope.
Ltac Zify.zify_post_hook ::= idtac.
Local Notation inside := GeomProps.inside.

Definition has_data (jt : mem * tilecomp) : bool := match tdata (snd jt) with Some _ => true | None => false end.

(** Tiles without data change nothing. *)
Lemma assemble_skip : forall ts o, assemble o ts = assemble o (filter has_data ts).
Proof.
  induction ts as [| [junk t] ts IH]; intros o; [reflexivity |]. cbn [filter]. unfold has_data at 1. cbn [snd]. destruct (tdata t) as [src |] eqn:ET.
  - cbn [assemble]. destruct (update_image junk o t); [reflexivity | reflexivity | apply IH].
  - cbn [assemble]. unfold update_image. rewrite ET. destruct o as [oa ob oc od oe og]. cbn [ox0 oy0 factor ow oh odata]. apply IH.
Qed.

Lemma filter_map : forall {A B} (f : A -> B) p l, filter p (map f l) = map f (filter (fun a => p (f a)) l).
Proof. intros A B f p. induction l as [| a l IH]; cbn [map filter]; [reflexivity |]. destruct (p (f a)); cbn [map]; rewrite IH; reflexivity. Qed.

Lemma pairs_of : forall {A B} (f : A -> B) (R : B -> B -> Prop) l, NoDup l -> (forall a b, In a l -> In b l -> a <> b -> R (f a) (f b)) -> ForallOrdPairs R (map f l).
Proof.
  intros A B f R. induction l as [| a l IH]; intros ND H; cbn [map]; [constructor |]. inversion ND as [| ? ? NI ND']; subst. constructor.
  - apply Forall_forall. intros b I. apply in_map_iff in I. destruct I as (k & <- & I). apply H; [left; reflexivity | right; exact I | intros ->; contradiction].
  - apply IH; [exact ND' |]. intros; apply H; try right; assumption.
Qed.

Lemma tiles_nodup : forall n, NoDup (tiles n).
Proof. intros n. unfold tiles. apply FinFun.Injective_map_NoDup; [intros a b; lia | apply seq_NoDup]. Qed.
Lemma tiles_all : forall n i, 0 <= i < n -> In i (tiles n).
Proof. intros n i H. unfold tiles. apply in_map_iff. exists (Z.to_nat i). split; [lia | apply in_seq; lia]. Qed.

(** What is handed on of a tile. *)
Lemma shot_part : forall s win image h c, shows_part s win image (sh_tile h) h c ->
  exists F w t, frame s c = Some F /\ shot_comp win h c = Some t /\ AreaModel.comp_window (sh_tile h) win c = Some w /\
    (forall x y, inside w x y -> inside F x y) /\
    (tdata t = None -> forall x y, ~ inside w x y) /\
    forall m, tdata t = Some m -> AssembleProps.tile_ok t /\ tile_rect_of t = w /\ (exists x y, inside w x y) /\ m = sh_planes h c /\ forall x y, inside w x y -> tile_pixel t m x y = image c (place_in F x y).
Proof.
  intros s win image h c (F & comp & w & EF & EC & EW & EX & EY & N1 & N2 & NR & DE & IW & WS & HV). unfold shot_comp. rewrite EC. exists F, w. destruct EX as (X1 & X2 & X3 & X4), EY as (Y1 & Y2 & Y3 & Y4).
  pose proof (fun x y I => proj1 (HV x y I)) as IF. destruct (sh_whole h) eqn:EH.
  - specialize (WS eq_refl). subst w. eexists. split; [exact EF |]. split; [reflexivity |]. split; [exact EW |]. split; [exact IF |]. cbn [tdata]. split; [discriminate |]. intros m Em. apply some_inj in Em. subst m.
    unfold GeomModel.res_rect. rewrite DE. replace (nres (par (sh_tile h) c) - 1 - (nres (par (sh_tile h) c) - 1)) with 0 by lia. cbn [fst snd]. rewrite !whole_axis by lia.
    unfold width in *. rewrite i32_id by (unfold in_i32; lia). rewrite u32_id by lia. split; [unfold AssembleProps.tile_ok; cbn [rx0 rx1 ry0 ry1 stride]; lia |].
    split; [unfold tile_rect_of; cbn [rx0 rx1 ry0 ry1]; destruct comp as [[a b] [e f]]; reflexivity |]. split.
    { exists (fst (fst comp)), (fst (snd comp)). unfold GeomProps.inside, GeomProofs.within. lia. }
    split; [reflexivity |]. intros x y I. rewrite <- (proj2 (HV x y I)). unfold tile_pixel, place_in, width. cbn [rx0 ry0 stride]. reflexivity.
  - unfold AreaModel.shown. rewrite EW, DE, !AreaProofs.win_axis_top by lia. cbv beta iota zeta. cbn [fst snd]. eexists. split; [exact EF |]. split; [reflexivity |]. split; [reflexivity |]. split; [exact IF |]. cbn [tdata].
    unfold width in *. rewrite !u32_id by lia. rewrite !i32_id by (unfold in_i32; lia). destruct (Z.ltb_spec 0 (snd (fst w) - fst (fst w))), (Z.ltb_spec 0 (snd (snd w) - fst (snd w))); cbn [andb];
      try (split; [intros _ x y; unfold GeomProps.inside, GeomProofs.within; lia | discriminate]).
    split; [discriminate |]. intros m Em. apply some_inj in Em. subst m. split; [unfold AssembleProps.tile_ok; cbn [rx0 rx1 ry0 ry1 stride]; lia |].
    split; [unfold tile_rect_of; cbn [rx0 rx1 ry0 ry1]; destruct w as [[a b] [e f]]; reflexivity |]. split.
    { exists (fst (fst w)), (fst (snd w)). unfold GeomProps.inside, GeomProofs.within. lia. }
    split; [reflexivity |]. intros x y I. rewrite <- (proj2 (HV x y I)). unfold tile_pixel, place_in, width. cbn [rx0 ry0 stride]. reflexivity.
Qed.

(** The component [c] of the output image holds the part of [image] it stands for. *)
Definition shows_area (image : planes_t) (c : Z) (F : rect) (o : output) : Prop :=
  exists m, odata o = Some m /\ forall x y, inside (out_rect o) x y -> inside F x y /\ pixel o m x y = image c (place_in F x y).

Lemma gathered_area : forall s t tw th win junk (want : Z -> bool) (res : Z -> shot) image c o, framed s tw th -> length (t_comps t) = length (comps s) -> 0 <= c < numcomps s ->
  (forall x y, inside win x y -> inside (extent_of s) x y) ->
  (forall i r x y, 0 <= i < tw * th -> tile_rect (x0 s, x1 s) (y0 s, y1 s) (tx0 s, tdx s) (ty0 s, tdy s) tw i = Some r -> inside r x y -> inside win x y -> want i = true) ->
  (forall i, 0 <= i < tw * th -> want i = true -> tile_of s t tw i = Some (sh_tile (res i)) /\ shows_part s win image (sh_tile (res i)) (res i) c) ->
  output_ok o -> odata o = None -> factor o = 0 ->
  (forall x y, inside (out_rect o) x y <-> inside win (x * c_dx (look comp0 (comps s) c)) (y * c_dy (look comp0 (comps s) c))) ->
  exists F out, frame s c = Some F /\ gather_area s tw th win junk (map (fun i => (i, res i)) (filter want (tiles (tw * th)))) c o = Some out /\ out_rect out = out_rect o /\ shows_area image c F out.
Proof.
  intros s t tw th win junk want res image c o HF L Hc WI WT H OO OD OF OW. destruct (frame_some s tw th c HF Hc) as (F & EF & _). exists F.
  pose proof HF as (HH & Hx & Hy & HC & _). destruct (header_axes _ _ _ _ _ _ HH) as (W1 & W2 & W3 & _). pose proof (comp_at s c HC Hc) as (_ & _ & Dx & Dy). set (q := look comp0 (comps s) c) in *.
  (* the samples of a tile component are those in the tile *)
  assert (PT : forall i, 0 <= i < tw * th -> want i = true -> exists r w, tile_rect (x0 s, x1 s) (y0 s, y1 s) (tx0 s, tdx s) (ty0 s, tdy s) tw i = Some r /\ AreaModel.comp_window (sh_tile (res i)) win c = Some w /\
    (forall x y, inside w x y <-> inside r (x * c_dx q) (y * c_dy q) /\ inside win (x * c_dx q) (y * c_dy q))).
  { intros i Hi Wi. destruct (H i Hi Wi) as (ET & F' & comp & w & _ & EC & EW & _ & _ & _ & _ & _ & _ & IW & _). destruct (tile_of_shape s t tw i _ L ET) as (ER & _ & _ & SH). destruct (SH c Hc) as [Sx Sy]. fold q in Sx, Sy.
    destruct (c28_component _ _ _ _ _ _ i (c_dx q) (c_dy q) HH Hx Hy Hi Dx Dy) as (r & cc & ER' & ECR & IC). exists r, w. split; [exact ER' |]. split; [exact EW |].
    destruct (tile_in_frame s t tw th i _ c HF L Hi ET Hc) as (F2 & comp2 & _ & EC2 & ECR2 & _). fold q in ECR2. rewrite EC in EC2. apply some_inj in EC2. subst comp2. rewrite ER in ER'. apply some_inj in ER'. subst r. rewrite ECR in ECR2. apply some_inj in ECR2. subst cc.
    intros x y. rewrite IW, Sx, Sy, IC. reflexivity. }
  (* every sample is in a tile that is decoded *)
  assert (CV : forall x y, inside (out_rect o) x y -> exists i w, 0 <= i < tw * th /\ want i = true /\ AreaModel.comp_window (sh_tile (res i)) win c = Some w /\ inside w x y).
  { intros x y I. apply OW in I. destruct (c28_partition _ _ _ _ _ _ _ _ HH Hx Hy (WI _ _ I)) as (i & (Hi & r & ER & IR) & _). pose proof (WT i r _ _ Hi ER IR I) as Wi.
    destruct (PT i Hi Wi) as (r' & w & ER' & EW & IW). rewrite ER in ER'. apply some_inj in ER'. subst r'. exists i, w. split; [exact Hi |]. split; [exact Wi |]. split; [exact EW |]. apply IW. split; assumption. }
  assert (SOME : inside (out_rect o) (X0 o) (Y0 o)) by (unfold output_ok in OO; unfold GeomProps.inside, GeomProofs.within, out_rect; cbn [fst snd]; lia).
  unfold gather_area. destruct (single_whole s tw th win) eqn:EW1.
  - unfold single_whole in EW1. rewrite !andb_true_iff, !Z.eqb_eq in EW1. destruct EW1 as (((((((E1 & E2) & _) & _) & _) & _) & _) & _). assert (NB : tw * th = 1) by lia.
    assert (E0 : tiles (tw * th) = [0]) by (rewrite NB; reflexivity). rewrite E0. cbn [filter]. destruct (CV _ _ SOME) as (i & w & Hi & Wi & EW & _). assert (i = 0) by lia. subst i. rewrite Wi. cbn [map].
    eexists. split; [exact EF |]. split; [reflexivity |]. split; [reflexivity |]. unfold shows_area. cbn [odata]. exists (sh_planes (res 0) c). split; [reflexivity |].
    destruct (H 0 Hi Wi) as (ET & F' & comp & w' & EF' & EC & EW' & EX & EY & _ & _ & _ & _ & IW & WS & HV). rewrite EF in EF'. apply some_inj in EF'. subst F'. rewrite EW in EW'. apply some_inj in EW'. subst w'.
    assert (CI : forall x y, inside (out_rect o) x y -> inside w x y). { intros x y I. destruct (CV x y I) as (i & w' & Hi' & _ & EW' & I'). assert (i = 0) by lia. subst i. rewrite EW in EW'. apply some_inj in EW'. subst w'. exact I'. }
    assert (CO : forall x y, inside w x y -> inside (out_rect o) x y).
    { intros x y I. apply OW. destruct (PT 0 Hi Wi) as (r & w' & _ & EW' & IW'). rewrite EW in EW'. apply some_inj in EW'. subst w'. apply IW', I. }
    assert (EQ : w = out_rect o).
    { clear - CI CO SOME OO. set (R := out_rect o) in *. clearbody R. destruct w as [[a b] [e f]], R as [[a' b'] [e' f']]. unfold GeomProps.inside, GeomProofs.within in *. cbn [fst snd] in *.
      pose proof (CI _ _ SOME). pose proof (CI a' e' ltac:(lia)). pose proof (CI (b' - 1) (f' - 1) ltac:(lia)). pose proof (CO a e ltac:(lia)). pose proof (CO (b - 1) (f - 1) ltac:(lia)). f_equal; f_equal; lia. }
    intros x y I. destruct (HV x y (CI x y I)) as [IF EV]. split; [exact IF |]. rewrite <- EV.
    assert (EP : (if sh_whole (res 0) then comp else w) = w) by (destruct (sh_whole (res 0)); [symmetry; apply WS; reflexivity | reflexivity]). rewrite EP, EQ.
    unfold pixel, place_in, out_rect, X0, Y0, width. cbn [ox0 oy0 factor ow oh fst snd]. f_equal. lia.
  - rewrite (map_map (fun i => (i, res i)) _ (filter want (tiles (tw * th)))). cbn [snd].
    set (LT := filter want (tiles (tw * th))).
    assert (IL : forall i, In i LT <-> 0 <= i < tw * th /\ want i = true).
    { intros i. unfold LT. rewrite filter_In. split; [intros [A B]; split; [apply tiles_in, A | exact B] | intros [A B]; split; [apply tiles_all, A | exact B]]. }
    set (tc := fun i => match shot_comp win (res i) c with Some t => t | None => AssembleModel.mkTile 0 0 0 0 0 None end).
    assert (SP : forall i, In i LT -> exists w, shot_comp win (res i) c = Some (tc i) /\ AreaModel.comp_window (sh_tile (res i)) win c = Some w /\ (forall x y, inside w x y -> inside F x y) /\ (tdata (tc i) = None -> forall x y, ~ inside w x y) /\
      forall m, tdata (tc i) = Some m -> AssembleProps.tile_ok (tc i) /\ tile_rect_of (tc i) = w /\ (exists x y, inside w x y) /\ forall x y, inside w x y -> tile_pixel (tc i) m x y = image c (place_in F x y)).
    { intros i I. apply IL in I. destruct I as [Hi Wi]. destruct (H i Hi Wi) as (ET & S). destruct (shot_part s win image (res i) c S) as (F' & w & t1 & EF' & ES & EW & IF & DN & DS). rewrite EF in EF'. apply some_inj in EF'. subst F'.
      assert (tc i = t1) by (unfold tc; rewrite ES; reflexivity). subst t1. exists w. split; [exact ES |]. split; [exact EW |]. split; [exact IF |]. split; [exact DN |]. intros m Em. destruct (DS m Em) as (A & B & C & _ & D). tauto. }
    rewrite (all_some_known _ tc) by (intros i I; destruct (SP i I) as (w & E & _); exact E). rewrite map_map, assemble_skip, filter_map.
    set (LD := filter (fun i => has_data (junk c, tc i)) LT).
    assert (ID : forall i, In i LD <-> In i LT /\ tdata (tc i) <> None).
    { intros i. unfold LD. rewrite filter_In. unfold has_data. cbn [snd]. destruct (tdata (tc i)); split; intros [A B]; split; try exact A; try discriminate; try reflexivity. contradiction. }
    assert (CD : forall x y, inside (out_rect o) x y -> exists i w, In i LD /\ AreaModel.comp_window (sh_tile (res i)) win c = Some w /\ inside w x y).
    { intros x y I. destruct (CV x y I) as (i & w & Hi & Wi & EW & IWn). exists i, w. split; [| split; assumption]. apply ID. assert (J : In i LT) by (apply IL; split; assumption). split; [exact J |].
      destruct (SP i J) as (w' & _ & EW' & _ & DN & _). rewrite EW in EW'. apply some_inj in EW'. subst w'. intros N. exact (DN N x y IWn). }
    destruct (c42_tiles (map (fun i => (junk c, tc i)) LD) o OO) as (m & EM & PX).
    + apply Forall_forall. intros jt I. apply in_map_iff in I. destruct I as (i & <- & I). cbn [snd]. apply ID in I. destruct I as [J N]. destruct (tdata (tc i)) as [src |] eqn:Et; [| contradiction].
      destruct (SP i J) as (w & _ & EW & _ & _ & DS). destruct (DS src Et) as (TO & TR & (px & py & IP) & _). split; [exact TO |]. split; [| discriminate].
      apply IL in J. destruct J as [Hi Wi]. destruct (PT i Hi Wi) as (r & w' & _ & EW' & IW). rewrite EW in EW'. apply some_inj in EW'. subst w'.
      assert (IO : inside (out_rect o) px py) by (apply OW, IW, IP). rewrite <- TR in IP. unfold touching. unfold GeomProps.inside, GeomProofs.within, out_rect, tile_rect_of in IO, IP. cbn [fst snd] in IO, IP. lia.
    + apply (pairs_of (fun i => (junk c, tc i))); [apply NoDup_filter, NoDup_filter, tiles_nodup |]. intros i j Ii Ij NE x y A B. cbn [snd] in A, B. apply ID in Ii, Ij. destruct Ii as [Ii Ni], Ij as [Ij Nj].
      destruct (tdata (tc i)) as [si |] eqn:Ei; [| contradiction]. destruct (tdata (tc j)) as [sj |] eqn:Ej; [| contradiction].
      destruct (SP i Ii) as (wi & _ & EWi & _ & _ & DSi). destruct (DSi si Ei) as (_ & TRi & _). destruct (SP j Ij) as (wj & _ & EWj & _ & _ & DSj). destruct (DSj sj Ej) as (_ & TRj & _). rewrite TRi in A. rewrite TRj in B.
      apply IL in Ii, Ij. destruct Ii as [Hi Wi], Ij as [Hj Wj]. destruct (PT i Hi Wi) as (ri & wi' & ERi & EWi' & IWi). rewrite EWi in EWi'. apply some_inj in EWi'. subst wi'. destruct (PT j Hj Wj) as (rj & wj' & ERj & EWj' & IWj). rewrite EWj in EWj'. apply some_inj in EWj'. subst wj'.
      apply IWi in A. apply IWj in B. destruct A as [A A'], B as [B _]. destruct (c28_partition _ _ _ _ _ _ _ _ HH Hx Hy (WI _ _ A')) as (k & _ & U). apply NE. transitivity k; [symmetry |]; apply U; (split; [assumption |]); eexists; split; eassumption.
    + destruct (CD _ _ SOME) as (i & _ & I & _). intros N. apply map_eq_nil in N. rewrite N in I. destruct I.
    + rewrite EM. eexists. split; [exact EF |]. split; [reflexivity |]. split; [reflexivity |]. unfold shows_area. cbn [odata]. exists m. split; [reflexivity |]. intros x y I. change (inside (out_rect o) x y) in I.
      destruct (CD x y I) as (i & w & IDi & EW & Iw). pose proof (proj1 (ID i) IDi) as [J N]. destruct (tdata (tc i)) as [src |] eqn:Et; [| contradiction].
      destruct (SP i J) as (w' & _ & EW' & IF & _ & DS). rewrite EW in EW'. apply some_inj in EW'. subst w'. destruct (DS src Et) as (_ & TR & _ & TP). split; [apply IF, Iw |]. rewrite <- (TP x y Iw).
      destruct (PX x y I) as [PI _]. apply (PI (junk c, tc i) src); [apply in_map_iff; exists i; split; [reflexivity | exact IDi] | exact Et |]. cbn [snd]. rewrite TR. exact Iw.
Qed.
