(** Proofs for CodecModel: parameters, planes of a tile, output image. *)

From Coq Require Import ZArith List Bool Arith Lia ZifyNat Permutation.
From Verif Require Import I32 Ints Mem MathModel MathProps CioModel GeomModel GeomProofs GeomCover GeomProps PiModel PiSpec PiProps T2PacketModel CblkModel PacketsModel
  TileModel TileGeom TileProofs ShiftModel ShiftProps SampleModel SampleProofs TileDataModel TileDataProps AssembleModel AssembleProps PartModel PartSpec PartWrite PartProps
  HdrModel HdrSpec HdrRun HdrProps CodecModel.
Import ListNotations.
Local Open Scope Z_scope.

Notation comp0 := (mkComp 0 0 0 0).

(** ** Parameters *)

(** The coding is reversible, and the level shift is the usual one. *)
Definition lossless (e : enc) : Prop :=
  forall c, 0 <= c < numcomps (e_siz e) -> let t := at_ (t_comps (e_tcp e)) c in
    qmfbid t = 1 /\ qntsty t = 0 /\ dcshift t = shift_of (look comp0 (comps (e_siz e)) c).
(** All components have one coding style. *)
Definition one_style (e : enc) : Prop :=
  forall c, 0 <= c < numcomps (e_siz e) -> same_style (at_ (t_comps (e_tcp e)) 0) (at_ (t_comps (e_tcp e)) c).

Lemma map_same : forall {A B} (f g : A -> B) d l l', length l = length l' ->
  (forall i, (i < length l)%nat -> f (nth i l d) = g (nth i l' d)) -> map f l = map g l'.
Proof.
  intros A B f g d. induction l as [| a l IH]; intros [| b l'] E H; cbn [length] in *; try discriminate; [reflexivity |].
  cbn [map]. f_equal; [apply (H 0%nat); lia |]. apply IH; [lia |]. intros i Hi. apply (H (S i)). lia.
Qed.

Lemma read_back : forall ihdr e other old rest, enc_ok ihdr 0 e -> one_style e -> lossless e -> has_poc e = false ->
  exists hd t, write_header e old = Some hd /\ read_header other ihdr 0 (hd ++ be 2 SOT ++ rest) = Some (e_siz e, t, rest) /\
    t_csty t = t_csty (e_tcp e) /\ t_prg t = t_prg (e_tcp e) /\ t_layers t = t_layers (e_tcp e) /\ t_mct t = t_mct (e_tcp e) /\ t_pocs t = [] /\
    style_of t = style_of (e_tcp e) /\ info_of (e_siz e) t = info_of (e_siz e) (e_tcp e) /\
    map params1 (paired (e_siz e) t) = map params1 (paired (e_siz e) (e_tcp e)).
Proof.
  intros ihdr e other old rest HE HO HL HP. destruct (c31_main_header other ihdr 0 e old rest HE) as (hd & t & W & R & A1 & A2 & A3 & A4 & A5 & A6 & A7).
  rewrite HP in A5. exists hd, t. do 7 (split; [assumption |]).
  pose proof HE as (_ & _ & N & _).
  assert (NN : length (t_comps t) = length (t_comps (e_tcp e))) by lia.
  assert (NC : length (comps (e_siz e)) = length (t_comps t)) by (unfold numcomps in *; lia).
  assert (Q : forall i, (i < length (t_comps t))%nat -> let a := nth i (t_comps (e_tcp e)) tccp0 in let b := nth i (t_comps t) tccp0 in
    same_style a b /\ same_quant a b /\ roishift b = roishift a /\ dcshift b = dcshift a /\ qntsty a = 0).
  { intros i Hi a b. assert (Hc : 0 <= Z.of_nat i < numcomps (e_siz e)) by lia. destruct (A7 _ Hc) as (S & Q & Ro & D). destruct (HL _ Hc) as (_ & L2 & L3).
    pose proof (HO _ Hc) as O. unfold at_ in *. rewrite Nat2Z.id in *. fold a in O, Q, Ro, L2, L3. fold b in S, Q, Ro, D.
    split; [eapply same_style_trans; [apply same_style_sym, O | exact S] |]. split; [exact Q |]. split; [exact Ro |]. split; [| exact L2].
    rewrite D, L3. unfold look. rewrite Nat2Z.id. reflexivity. }
  split; [| split].
  - unfold style_of. f_equal. symmetry. apply map_same with (d := tccp0); [lia |]. intros i Hi. destruct (Q i ltac:(lia)) as (S & QQ & Ro & _ & L2).
    destruct S as (_ & S2 & S3 & S4 & S5 & _). destruct QQ as (_ & G & E). unfold style1. rewrite <- S2, <- S3, <- S4, <- S5, G, Ro. f_equal.
    apply map_ext_in. intros b Hb. unfold GeomModel.upto in Hb. apply in_map_iff in Hb. destruct Hb as (k & <- & Hk). apply in_seq in Hk.
    assert (HB : 0 <= Z.of_nat k < bands (nth i (t_comps (e_tcp e)) tccp0)) by (unfold bands; rewrite L2; change (0 =? 1) with false; cbv iota; lia).
    specialize (E _ HB). unfold step in E. rewrite L2 in E. change (0 =? 1) with false in E. cbn [andb] in E. congruence.
  - unfold info_of. f_equal. apply map_same with (d := (comp0, tccp0)); [unfold paired; rewrite !combine_length; lia |].
    intros i Hi. unfold paired in *. rewrite combine_length in Hi. rewrite !combine_nth by lia. unfold info1. cbn [fst snd].
    destruct (Q i ltac:(lia)) as (_ & _ & _ & D & _). rewrite D. reflexivity.
  - apply map_same with (d := (comp0, tccp0)); [unfold paired; rewrite !combine_length; lia |].
    intros i Hi. unfold paired in *. rewrite combine_length in Hi. rewrite !combine_nth by lia. unfold params1. cbn [fst snd].
    destruct (Q i ltac:(lia)) as ((_ & S2 & _ & _ & _ & _ & S7) & _). rewrite <- S2. f_equal.
    apply map_ext_in. intros r Hr. unfold GeomModel.upto in Hr. apply in_map_iff in Hr. destruct Hr as (k & <- & Hk). apply in_seq in Hk.
    destruct (S7 (Z.of_nat k) ltac:(lia)) as [P1 P2]. rewrite P1, P2. reflexivity.
Qed.

(** ** Tiles *)

Definition extent_of (s : siz) : rect := ((x0 s, x1 s), (y0 s, y1 s)).
(** A component of the image. *)
Definition frame (s : siz) (c : Z) : option rect := comp_rect (extent_of s) (c_dx (look comp0 (comps s) c)) (c_dy (look comp0 (comps s) c)).
(** Where a sample of a component is in its plane. *)
Definition place_in (r : rect) (x y : Z) : Z := (y - fst (snd r)) * width (fst r) + (x - fst (fst r)).

(** A main header as far as tiles are concerned. *)
Definition framed (s : siz) (tw th : Z) : Prop :=
  header (x0 s, x1 s) (y0 s, y1 s) (tx0 s, tdx s) (ty0 s, tdy s) tw th /\ x1 s < 2 ^ 31 /\ y1 s < 2 ^ 31 /\ Forall comp_ok (comps s) /\ numcomps s <= 16384.

Lemma comp_at : forall s c, Forall comp_ok (comps s) -> 0 <= c < numcomps s -> comp_ok (look comp0 (comps s) c).
Proof. intros s c H Hc. rewrite Forall_forall in H. apply H. unfold look. apply nth_In. unfold numcomps in Hc. lia. Qed.

Lemma tile_of_shape : forall s t tw i T, length (t_comps t) = length (comps s) -> tile_of s t tw i = Some T ->
  tile_rect (x0 s, x1 s) (y0 s, y1 s) (tx0 s, tdx s) (ty0 s, tdy s) tw i = Some ((t_x0 T, t_x1 T), (t_y0 T, t_y1 T)) /\
  PiSpec.t_layers T = t_layers t /\ count T = numcomps s /\
  forall c, 0 <= c < numcomps s -> sx (par T c) = c_dx (look comp0 (comps s) c) /\ sy (par T c) = c_dy (look comp0 (comps s) c).
Proof.
  intros s t tw i T L E. unfold tile_of in E. destruct (tile_rect _ _ _ _ _ _) as [[[a b] [c d]] |]; [| discriminate].
  assert (T = PiSpec.mkTile a c b d (t_layers t) (map params1 (paired s t))) by (cbn [fst snd] in E; congruence). subst T. clear E.
  split; [reflexivity |]. split; [reflexivity |]. split.
  - unfold count. cbn [PiSpec.t_comps]. rewrite map_length. unfold paired. rewrite combine_length. unfold numcomps. lia.
  - intros k Hk. unfold par. cbn [PiSpec.t_comps]. unfold numcomps in Hk.
    rewrite (nth_indep _ _ (params1 (comp0, tccp0))) by (rewrite map_length; unfold paired; rewrite combine_length; lia).
    rewrite map_nth. unfold paired. rewrite combine_nth by lia. split; reflexivity.
Qed.

Lemma ceil_mono : forall a b d p q, 0 < d -> a <= b -> ceil_of a d p -> ceil_of b d q -> p <= q.
Proof. unfold ceil_of. intros. nia. Qed.
Lemma ceil_unique : forall a d p q, 0 < d -> ceil_of a d p -> ceil_of a d q -> p = q.
Proof. unfold ceil_of. intros. nia. Qed.
Lemma ceil_nonneg : forall a d p, 0 < d -> 0 <= a -> ceil_of a d p -> 0 <= p <= a.
Proof. unfold ceil_of. intros. nia. Qed.

Lemma comp_rect_ceil : forall x y dx dy r, 0 <= fst x < 2 ^ 31 -> 0 <= snd x < 2 ^ 31 -> 0 <= fst y < 2 ^ 31 -> 0 <= snd y < 2 ^ 31 -> 1 <= dx <= 255 -> 1 <= dy <= 255 ->
  comp_rect (x, y) dx dy = Some r ->
  ceil_of (fst x) dx (fst (fst r)) /\ ceil_of (snd x) dx (snd (fst r)) /\ ceil_of (fst y) dy (fst (snd r)) /\ ceil_of (snd y) dy (snd (snd r)).
Proof.
  intros [a b] [c d] dx dy r Ha Hb Hc Hd Hx Hy E. cbn [fst snd] in *. unfold comp_rect in E. cbn [fst snd] in E.
  destruct (comp_axis (a, b) dx) as [u |] eqn:Eu; [| discriminate]. destruct (comp_axis (c, d) dy) as [v |] eqn:Ev; [| discriminate].
  apply some_inj in E. subst r. cbn [fst snd]. destruct (comp_axis_ceil a b dx u) as [P Q]; try assumption. destruct (comp_axis_ceil c d dy v) as [P' Q']; try assumption. tauto.
Qed.
Lemma comp_rect_some : forall x y dx dy, 0 <= fst x < 2 ^ 31 -> 0 <= snd x < 2 ^ 31 -> 0 <= fst y < 2 ^ 31 -> 0 <= snd y < 2 ^ 31 -> 1 <= dx <= 255 -> 1 <= dy <= 255 ->
  exists r, comp_rect (x, y) dx dy = Some r.
Proof.
  intros [a b] [c d] dx dy Ha Hb Hc Hd Hx Hy. cbn [fst snd] in *. unfold comp_rect, comp_axis. cbn [fst snd].
  rewrite !i32_id by (unfold in_i32; lia).
  destruct (c29_int_ceildiv a dx ltac:(lia) ltac:(lia)) as (p1 & -> & _). destruct (c29_int_ceildiv b dx ltac:(lia) ltac:(lia)) as (p2 & -> & _).
  destruct (c29_int_ceildiv c dy ltac:(lia) ltac:(lia)) as (p3 & -> & _). destruct (c29_int_ceildiv d dy ltac:(lia) ltac:(lia)) as (p4 & -> & _).
  eexists. reflexivity.
Qed.

(** A tile component lies in the component of the image. *)
Lemma tile_in_frame : forall s t tw th i T c, framed s tw th -> length (t_comps t) = length (comps s) -> 0 <= i < tw * th -> tile_of s t tw i = Some T -> 0 <= c < numcomps s ->
  exists F comp, frame s c = Some F /\ tile_comp T c = Some comp /\ comp_rect ((t_x0 T, t_x1 T), (t_y0 T, t_y1 T)) (c_dx (look comp0 (comps s) c)) (c_dy (look comp0 (comps s) c)) = Some comp /\
    0 <= fst (fst F) <= fst (fst comp) /\ fst (fst comp) <= snd (fst comp) <= snd (fst F) /\ snd (fst F) < 2 ^ 31 /\
    0 <= fst (snd F) <= fst (snd comp) /\ fst (snd comp) <= snd (snd comp) <= snd (snd F) /\ snd (snd F) < 2 ^ 31 /\
    ceil_of (x0 s) (c_dx (look comp0 (comps s) c)) (fst (fst F)) /\ ceil_of (x1 s) (c_dx (look comp0 (comps s) c)) (snd (fst F)) /\
    ceil_of (y0 s) (c_dy (look comp0 (comps s) c)) (fst (snd F)) /\ ceil_of (y1 s) (c_dy (look comp0 (comps s) c)) (snd (snd F)).
Proof.
  intros s t tw th i T c (H & Hx & Hy & HC & _) L Hi E Hc. destruct (tile_of_shape _ _ _ _ _ L E) as (ER & _ & _ & SH). destruct (SH c Hc) as [Sx Sy].
  pose proof (comp_at s c HC Hc) as (_ & _ & Dx & Dy). set (dx := c_dx (look comp0 (comps s) c)) in *. set (dy := c_dy (look comp0 (comps s) c)) in *.
  destruct (c28_tiles_exist _ _ _ _ _ _ i H ltac:(cbn [snd]; lia) ltac:(cbn [snd]; lia) Hi) as (r & Er & Lx & Ly & In). rewrite ER in Er. apply some_inj in Er. subst r. cbn [fst snd] in Lx, Ly.
  destruct H as (U1 & U2 & U3 & U4 & _). cbn [fst snd] in *. unfold is_u32 in *.
  assert (I1 : inside ((x0 s, x1 s), (y0 s, y1 s)) (t_x0 T) (t_y0 T)) by (apply In; split; unfold GeomProofs.within; cbn [fst snd]; lia).
  assert (I2 : inside ((x0 s, x1 s), (y0 s, y1 s)) (t_x1 T - 1) (t_y1 T - 1)) by (apply In; split; unfold GeomProofs.within; cbn [fst snd]; lia).
  unfold inside, GeomProofs.within in I1, I2. cbn [fst snd] in I1, I2.
  destruct (comp_rect_some (x0 s, x1 s) (y0 s, y1 s) dx dy) as (F & EF); cbn [fst snd]; try lia.
  destruct (comp_rect_some (t_x0 T, t_x1 T) (t_y0 T, t_y1 T) dx dy) as (comp & EC); cbn [fst snd]; try lia.
  destruct (comp_rect_ceil (x0 s, x1 s) (y0 s, y1 s) dx dy F) as (F1 & F2 & F3 & F4); cbn [fst snd]; try lia; try assumption.
  destruct (comp_rect_ceil (t_x0 T, t_x1 T) (t_y0 T, t_y1 T) dx dy comp) as (C1 & C2 & C3 & C4); cbn [fst snd]; try lia; try assumption. cbn [fst snd] in *.
  exists F, comp. split; [exact EF |]. split; [| split; [exact EC |]].
  { unfold tile_comp. rewrite Sx, Sy. unfold comp_rect in EC. cbn [fst snd] in EC. exact EC. }
  assert (Z0 : 0 < dx) by lia. assert (Z1 : 0 < dy) by lia.
  pose proof (ceil_nonneg (x0 s) dx _ Z0 ltac:(lia) F1). pose proof (ceil_nonneg (x1 s) dx _ Z0 ltac:(lia) F2). pose proof (ceil_nonneg (y0 s) dy _ Z1 ltac:(lia) F3). pose proof (ceil_nonneg (y1 s) dy _ Z1 ltac:(lia) F4).
  pose proof (ceil_mono (x0 s) (t_x0 T) dx _ _ ltac:(lia) ltac:(lia) F1 C1). pose proof (ceil_mono (t_x0 T) (t_x1 T) dx _ _ ltac:(lia) ltac:(lia) C1 C2). pose proof (ceil_mono (t_x1 T) (x1 s) dx _ _ ltac:(lia) ltac:(lia) C2 F2).
  pose proof (ceil_mono (y0 s) (t_y0 T) dy _ _ ltac:(lia) ltac:(lia) F3 C3). pose proof (ceil_mono (t_y0 T) (t_y1 T) dy _ _ ltac:(lia) ltac:(lia) C3 C4). pose proof (ceil_mono (t_y1 T) (y1 s) dy _ _ ltac:(lia) ltac:(lia) C4 F4).
  repeat (split; [lia |]). tauto.
Qed.

(** With a single tile, the tile is the image. *)
Lemma single_tile : forall s tw th i x y, framed s tw th -> tw * th = 1 -> 0 <= i < tw * th ->
  tile_rect (x0 s, x1 s) (y0 s, y1 s) (tx0 s, tdx s) (ty0 s, tdy s) tw i = Some (x, y) -> tw = 1 /\ th = 1 /\ x = (x0 s, x1 s) /\ y = (y0 s, y1 s).
Proof.
  intros s tw th i x y (H & Hx & Hy & _) N Hi E. destruct (header_axes _ _ _ _ _ _ H) as (W & T & _ & Ax & Ay). assert (tw = 1 /\ th = 1) as [-> ->] by nia.
  split; [reflexivity |]. split; [reflexivity |]. destruct H as (U1 & U2 & U3 & U4 & U5 & U6 & U7 & U8 & _). cbn [fst snd] in *.
  apply siz_axis_spec in Ax; try assumption. apply siz_axis_spec in Ay; try assumption. destruct Ax as (a1 & a2 & a3 & a4 & _), Ay as (b1 & b2 & b3 & b4 & _).
  assert (i = 0) by lia. subst i. unfold tile_rect in E. cbn [fst snd] in E. change (0 mod 1) with 0 in E. change (0 / 1) with 0 in E.
  destruct (tile_axis_spec (x0 s) (x1 s) (tx0 s) (tdx s) 1 0) as [Ex _]; try assumption; try lia.
  destruct (tile_axis_spec (y0 s) (y1 s) (ty0 s) (tdy s) 1 0) as [Ey _]; try assumption; try lia. rewrite Ex, Ey in E. unfold ceil_of in a4, b4.
  assert (EX : x = (Z.max (tx0 s + 0 * tdx s) (x0 s), Z.min (tx0 s + (0 + 1) * tdx s) (x1 s))) by congruence.
  assert (EY : y = (Z.max (ty0 s + 0 * tdy s) (y0 s), Z.min (ty0 s + (0 + 1) * tdy s) (y1 s))) by congruence.
  rewrite EX, EY. split; f_equal; lia.
Qed.
