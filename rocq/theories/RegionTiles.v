(** One tile of the area through the decoder (C67). *)

From Coq Require Import ZArith List Bool Arith Lia ZifyNat.
From Verif Require Import I32 Ints Mem MathModel MathProps BioSpec CioModel GeomModel GeomProofs GeomCover GeomProps TgtModel T2PacketModel T1Model CblkModel PiModel PiSpec PiProps PacketsModel
  TileModel TileGeom TileProofs TileProps ShiftModel ShiftProps SampleModel SampleProofs SampleProps TileDataModel TileDataProps AssembleModel AssembleProps PartModel PartSpec PartWrite
  HdrModel HdrSpec HdrRun CodecModel CodecProofs CodecInput CodecTiles RegionModel.
From Verif Require WindowProps AreaModel AreaProofs AreaComp AreaTile AreaProps.
Import ListNotations.
Local Open Scope Z_scope.
Ltac Zify.zify_post_hook ::= idtac.
Local Notation inside := GeomProps.inside.

(** What decoding an area asks of a tile beyond C63: precincts that can be
    counted, no component that is one sample at the origin with several
    resolutions, at most 2^30 rows, no high-throughput blocks. *)
Definition area_able (T : tile) (S : Z -> style) : Prop :=
  AreaComp.grids_up T /\ AreaComp.not_lone T /\ (forall c comp, 0 <= c < count T -> tile_comp T c = Some comp -> width (snd comp) <= 2 ^ 30) /\
  (forall c, 0 <= c < count T -> Z.land (s_sty (S c)) 64 = 0).

(** Component [c] of the decoded tile shows the part [w] of the tile component
    that is in the area. *)
Definition shows_part (s : siz) (win : rect) (image : planes_t) (T : tile) (h : shot) (c : Z) : Prop :=
  exists F comp w, frame s c = Some F /\ tile_comp T c = Some comp /\ AreaModel.comp_window T win c = Some w /\
    WindowProps.extent_in (fst comp) (fst w) /\ WindowProps.extent_in (snd comp) (snd w) /\ 1 <= width (fst comp) /\ 1 <= width (snd comp) /\
    1 <= nres (par T c) <= 33 /\ sh_dec h c = nres (par T c) - 1 /\
    (forall x y, inside w x y <-> inside comp x y /\ inside win (x * sx (par T c)) (y * sy (par T c))) /\ (sh_whole h = true -> w = comp) /\
    forall x y, inside w x y -> inside F x y /\ sh_planes h c (place_in (if sh_whole h then comp else w) x y) = image c (place_in F x y).

Lemma area_flag : forall alloc psize size T S I mct csty win ps data buf d wh pl, AreaModel.decode_area alloc psize size T S I mct csty win ps data buf d = Some (wh, pl) -> wh = AreaModel.whole_tile T win.
Proof.
  intros alloc psize size T S I mct csty win ps data buf d wh pl. unfold AreaModel.decode_area. destruct (AreaModel.whole_tile T win) eqn:E; cbn [orb negb].
  - destruct (PacketsModel.read_packets _ _ _ _ _ _) as [[ds r] |]; [| discriminate]. destruct (AreaModel.area_show _ _ _ _ _ _ _); [| discriminate]. destruct (AreaModel.whole_mct _ _ _ _); congruence.
  - destruct (AreaModel.windows_ok T win); cbn [negb]; [| discriminate]. destruct (PacketsModel.read_packets _ _ _ _ _ _) as [[ds r] |]; [| discriminate].
    destruct (AreaModel.area_comps _ _ _ _ _ _ _ _ _ _); [| discriminate]. destruct (AreaModel.area_mct _ _ _ _ _); congruence.
Qed.

Lemma shot_back : forall psize esize dsize big s t tw th image o r i T datas,
  framed s tw th -> length (t_comps t) = length (comps s) -> (forall c, 0 <= c < numcomps s -> dcshift (at_ (t_comps t) c) = shift_of (look comp0 (comps s) c)) ->
  order_of (t_prg t) = Some o -> 1 <= t_layers t <= 999 -> flags_ok (style_of t) -> image_ok s image -> (1 < tw * th -> through_bytes s) -> 0 <= i < tw * th ->
  tile_coded psize esize dsize big s t tw (tw * th) image o r i T -> area_able T (style_of t) ->
  encode_tile psize esize big s t tw (tw * th) image r i = Some datas -> Z.of_nat (length (concat datas)) < 2 ^ 32 ->
  exists n0, forall t', read_as s t t' -> forall alloc win buf fresh, (forall c j, alloc i c j = true) -> AreaProofs.overlaps T win ->
    exists h, (forall fuel, (n0 <= fuel)%nat -> decode_shot alloc psize dsize fuel s tw win buf fresh i t' (concat datas) = Some h) /\ sh_tile h = T /\
      forall c, 0 <= c < numcomps s -> shows_part s win image T h c.
Proof.
  intros psize esize dsize big s t tw th image o r i T datas HF L HD HO HN HFl HI HB Hi K (AG & AN & AT & AH) E DL.
  destruct K as [KT KW KO KS KE KD (P & KL & KP) KM KN KX KY KB KA KK].
  unfold encode_tile in E. rewrite KT in E. destruct (tile_input big s T (tw * th) image (r_dest r)) as [d |] eqn:ED; [| discriminate].
  destruct (analyse T (info_of s t) (with_mct t) (r_tmp r) d) as [coef |] eqn:EA; [| discriminate].
  destruct (write_parts _ _ _ _ _) as [[datas' es'] |] eqn:EW; [| discriminate]. apply some_inj in E. subst datas'.
  destruct (tile_of_shape s t tw i T L KT) as (_ & NL & NC & SH).
  destruct (input_ok big s t tw th i T image (r_dest r) HF L Hi KT HI HB KX KY) as (dd & ED' & IN). rewrite ED in ED'. apply some_inj in ED'. subst dd.
  pose proof HF as (_ & _ & _ & HC & _). pose proof (input_samples s t T d P image L NC HC HI HD KP IN KX) as SO.
  pose proof (c59_fit T (style_of t) (info_of s t) P (with_mct t) d (r_tmp r) coef KW KS SO KL KM KN EA) as FP.
  destruct (AreaProps.c65_samples T o (style_of t) (info_of s t) P (with_mct t) psize esize dsize (t_csty t) (Z.to_nat (t_layers t)) d (r_tmp r) coef (r_bufs r) (r_cuts r)
    KW KO ltac:(rewrite NL; lia) ltac:(lia) HFl KS KE KD SO KL KM EA FP KB (KA d coef eq_refl EA)) as (out & EN & DEC & TR).
  assert (out = concat (map snd (r_parts r))) by (eapply encodes_one; eassumption). subst out.
  assert (V : forall q, In q (concat (map snd (r_parts r))) <-> valid T q).
  { destruct (c27_tile T o KW KO) as (out' & (gs & Eg & n0 & D0) & _ & _ & V). destruct DEC as (gs' & Eg' & n1 & D1). assert (gs' = gs) as -> by congruence.
    pose proof (D0 (Nat.max n0 n1) ltac:(lia)) as A. pose proof (D1 (Nat.max n0 n1) ltac:(lia)) as B. assert (out' = concat (map snd (r_parts r))) as <- by congruence. exact V. }
  destruct DEC as (gs & EG & n0 & DR).
  exists n0. intros t' (Q1 & Q2 & Q3 & Q4 & Q5 & Q6 & Q7 & Q8) alloc win buf fresh AL OV.
  specialize (TR (r_packno r) (r_parts r) datas es' [] eq_refl EW (Forall_nil _)). rewrite app_nil_r in TR. specialize (TR DL (alloc i) win (buf i) (fresh i)).
  assert (RD : AreaProps.ready psize dsize T (style_of t) (with_mct t) win).
  { split; [exact KW |]. split; [exact KS |]. split; [exact KD |]. split; [exact AG |]. split; [exact AN |]. split; [rewrite NL; lia |]. split; [exact OV |]. split; [exact KM |]. split; [exact AT | exact AH]. }
  specialize (TR RD). destruct (AreaModel.decode_area (alloc i) psize dsize T (style_of t) (info_of s t) (with_mct t) (t_csty t) win (concat (map snd (r_parts r))) (concat datas) (buf i) (fresh i)) as [[wh pl] |] eqn:EDA.
  2: { exfalso. apply TR. exact AL. }
  exists (mkShot T wh (AreaModel.resno_decoded T (AreaModel.area_want T win) (concat (map snd (r_parts r)))) pl). split; [| split; [reflexivity |]].
  - intros fuel Hf. unfold decode_shot. assert (tile_of s t' tw i = Some T) as -> by (rewrite <- KT; unfold tile_of; rewrite Q3, Q8; reflexivity).
    assert (PO : packets_of fuel T t' = Some (concat (map snd (r_parts r)))).
    { unfold packets_of, volumes. rewrite Q5, Q2, HO. change (whole (t_x0 T) (t_y0 T) (t_x1 T) (t_y1 T) (PiSpec.t_layers T) (PiSpec.t_comps T) o) with (all_of T o). rewrite EG. apply DR, Hf. }
    rewrite PO. unfold with_mct in *. rewrite Q1, Q4, Q6, Q7, EDA. reflexivity.
  - intros c Hc. destruct (IN c Hc) as (F & comp & EF & EC & HS). assert (HcT : 0 <= c < count T) by lia. assert (HL : 1 <= PiSpec.t_layers T) by (rewrite NL; lia).
    destruct (AreaTile.fact psize dsize T (style_of t) win (concat (map snd (r_parts r))) (concat datas) KW KS KD AG AN HL OV V c HcT) as (comp' & w & EC' & EWi & EX & EY & X & Y & NR & IW & D1 & _).
    rewrite EC in EC'. apply some_inj in EC'. subst comp'. destruct (KX c comp Hc EC) as [N1 N2]. destruct (TR c comp HcT EC) as (w' & IW' & HV).
    destruct (AreaProofs.window_spec T win c comp KW OV HcT EC) as (w2 & EW2 & _ & _ & IW2). rewrite EWi in EW2. apply some_inj in EW2. subst w2.
    exists F, comp, w. cbn [sh_dec sh_whole sh_planes]. do 5 (split; [assumption |]). split; [exact N1 |]. split; [exact N2 |]. split; [exact NR |]. split; [apply D1; unfold AreaTile.filled, width in *; lia |]. split; [exact IW2 |].
    assert (WS : wh = true -> w = comp). { intros ->. apply (AreaTile.whole_same psize dsize T (style_of t) (info_of s t) win (concat (map snd (r_parts r))) (concat datas) KW KS KD AG AN HL OV AT AH V (eq_sym (area_flag _ _ _ _ _ _ _ _ _ _ _ _ _ _ _ EDA)) c comp w HcT EC EWi). }
    split; [exact WS |]. intros x y I. pose proof (IW x y I) as IC. destruct (HS x y IC) as [I' EQ]. split; [exact I' |].
    assert (I2 : inside w' x y) by (apply IW', IW2, I). specialize (HV x y I2).
    replace (place_in (if wh then comp else w) x y) with (AreaProps.at_ (if wh then comp else w') x y).
    { rewrite HV, <- EQ. reflexivity. }
    destruct wh; [reflexivity |]. assert (w' = w) as ->; [| reflexivity].
    (* two rectangles with the same points *)
    clear - IW' IW2 I I2. assert (Q : forall a b, inside w a b <-> inside w' a b) by (intros; rewrite IW2, IW'; reflexivity). destruct w as [[a b] [e f]], w' as [[a' b'] [e' f']].
    unfold GeomProps.inside, GeomProofs.within in *. cbn [fst snd] in *.
    pose proof (proj1 (Q a e) ltac:(lia)). pose proof (proj1 (Q (b - 1) (f - 1)) ltac:(lia)). pose proof (proj2 (Q a' e') ltac:(lia)). pose proof (proj2 (Q (b' - 1) (f' - 1)) ltac:(lia)). f_equal; f_equal; lia.
Qed.
