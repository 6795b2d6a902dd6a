(** A tile of the image through the codec, and the output image from its tiles
    (C63). *)

From Coq Require Import ZArith List Bool Arith Lia ZifyNat Permutation.
From Verif Require Import I32 Ints Mem MathModel MathProps BioSpec CioModel GeomModel GeomProofs GeomCover GeomProps TgtModel T2PacketModel T1Model CblkModel PiModel PiSpec PiProps PacketsModel
  TileModel TileGeom TileProofs TileProps ShiftModel ShiftProps SampleModel SampleProofs SampleProps TileDataModel TileDataProps AssembleModel AssembleProps PartModel PartSpec PartWrite
  HdrModel HdrSpec HdrRun CodecModel CodecProofs CodecInput.
Import ListNotations.
Local Open Scope Z_scope.

(** ** One tile *)

(** Everything C59 asks for tile [i] of the image, its coding being [r]. *)
Record tile_coded (psize esize dsize : Z) (big : bool) (s : siz) (t : HdrModel.tcp) (tw nb : Z) (image : planes_t) (o : PiModel.order) (r : run) (i : Z) (T : tile) : Prop := {
  tc_tile : tile_of s t tw i = Some T;
  tc_wf : wf T;
  tc_order : order_ok T o;
  tc_sizes : sizes_ok T (style_of t);
  tc_enc : sets_up psize esize T (style_of t);
  tc_dec : sets_up psize dsize T (style_of t);
  tc_levels : exists P, levels_ok T P /\ forall c, 0 <= c < numcomps s -> c_prec (look comp0 (comps s) c) <= P;
  tc_mct : mct_ok T (with_mct t);
  tc_enough : enough T (style_of t) (info_of s t) (with_mct t);
  tc_some : forall c comp, 0 <= c < numcomps s -> tile_comp T c = Some comp -> 1 <= width (fst comp) /\ 1 <= width (snd comp);
  tc_dest : 1 < nb -> forall ps, all_some (map (plane_of s T image) (GeomModel.upto (numcomps s))) = Some ps -> length (r_dest r) = Z.to_nat (input_size ps);
  tc_bufs : buffers_ok (r_bufs r);
  tc_passes : forall d coef, tile_input big s T nb image (r_dest r) = Some d -> analyse T (info_of s t) (with_mct t) (r_tmp r) d = Some coef ->
    all_passes psize esize T (style_of t) coef (r_bufs r) (r_cuts r) (Z.to_nat (t_layers t));
  tc_packets : encodes T [all_of T o] (concat (map snd (r_parts r))) }.

Lemma encodes_one : forall T vs a b, encodes T vs a -> encodes T vs b -> a = b.
Proof. intros T vs a b [n A] [m B]. specialize (A (Nat.max n m) ltac:(lia)). specialize (B (Nat.max n m) ltac:(lia)). congruence. Qed.

Lemma info_at : forall s t c, length (t_comps t) = length (comps s) -> 0 <= c < numcomps s ->
  info_of s t c = mkInfo (c_sgnd (look comp0 (comps s) c)) (c_prec (look comp0 (comps s) c)) (dcshift (at_ (t_comps t) c)).
Proof.
  intros s t c L Hc. unfold numcomps in Hc. unfold info_of, look at 1. rewrite (nth_indep _ _ (info1 (comp0, tccp0))) by (rewrite map_length; unfold paired; rewrite combine_length; lia).
  rewrite map_nth. unfold paired. rewrite combine_nth by lia. reflexivity.
Qed.

(** A place in the plane of a component is that of a sample. *)
Lemma place_of : forall (r : rect) i, 1 <= width (fst r) -> 0 <= i < width (fst r) * width (snd r) -> exists x y, inside r x y /\ i = place_in r x y.
Proof.
  intros [[a b] [c d]] i W H. unfold width in W, H. cbn [fst snd] in W, H.
  exists (a + i mod (b - a)), (c + i / (b - a)). pose proof (Z.mod_pos_bound i (b - a) ltac:(lia)). pose proof (Z.div_mod i (b - a) ltac:(lia)) as D.
  assert (0 <= i / (b - a)) by (apply Z.div_pos; lia). assert (i / (b - a) < d - c) by (apply Z.div_lt_upper_bound; lia).
  unfold inside, GeomProofs.within, place_in, width. cbn [fst snd]. split; [lia |].
  replace (c + i / (b - a) - c) with (i / (b - a)) by lia. replace (a + i mod (b - a) - a) with (i mod (b - a)) by lia. rewrite D at 1. lia.
Qed.
Lemma place_bounds : forall r x y, inside r x y -> 0 <= place_in r x y < width (fst r) * width (snd r).
Proof.
  intros [[a b] [c d]] x y [X Y]. unfold GeomProofs.within in X, Y. unfold place_in, width. cbn [fst snd] in *.
  assert ((y - c) * (b - a) <= (d - c - 1) * (b - a)) by (apply Z.mul_le_mono_nonneg_r; lia). assert (0 <= (y - c) * (b - a)) by (apply Z.mul_nonneg_nonneg; lia). lia.
Qed.

(** What the encoder gets is in range. *)
Lemma input_samples : forall s t T d P image, length (t_comps t) = length (comps s) -> count T = numcomps s -> Forall comp_ok (comps s) -> image_ok s image ->
  (forall c, 0 <= c < numcomps s -> dcshift (at_ (t_comps t) c) = shift_of (look comp0 (comps s) c)) -> (forall c, 0 <= c < numcomps s -> c_prec (look comp0 (comps s) c) <= P) ->
  (forall c, 0 <= c < numcomps s -> exists F comp, frame s c = Some F /\ tile_comp T c = Some comp /\
    forall x y, inside comp x y -> inside F x y /\ d c (place_in comp x y) = image c (place_in F x y)) ->
  (forall c comp, 0 <= c < numcomps s -> tile_comp T c = Some comp -> 1 <= width (fst comp) /\ 1 <= width (snd comp)) ->
  samples_ok T (info_of s t) P d.
Proof.
  intros s t T d P image L N HC HI HD HP H HX c Hc. rewrite N in Hc. rewrite (info_at s t c L Hc). cbn [i_sgnd i_prec i_shift]. pose proof (comp_at s c HC Hc) as (P1 & P2 & _).
  destruct (H c Hc) as (F & comp & EF & EC & HS). specialize (HP c Hc). rewrite (HD c Hc). set (q := look comp0 (comps s) c) in *.
  exists (negb (c_sgnd q =? 0)). split; [unfold flag; destruct (Z.eqb_spec (c_sgnd q) 0); cbn [negb]; lia |]. split; [lia |]. split.
  - unfold shift_of, default_shift, flag. destruct (Z.eqb_spec (c_sgnd q) 0); cbn [negb Z.eqb]; [| reflexivity]. rewrite u32_id by lia. symmetry. apply shl_ok. lia.
  - intros comp' k E Hk. rewrite EC in E. apply some_inj in E. subst comp'. destruct (place_of comp k (proj1 (HX c comp Hc EC)) Hk) as (x & y & I & ->). destruct (HS x y I) as [I' ->]. apply (HI c F x y Hc EF I').
Qed.

(** The decoder has read what matters of the encoder's parameters. *)
Definition read_as (s : siz) (t t' : HdrModel.tcp) : Prop :=
  t_csty t' = t_csty t /\ t_prg t' = t_prg t /\ t_layers t' = t_layers t /\ t_mct t' = t_mct t /\ t_pocs t' = [] /\ style_of t' = style_of t /\ info_of s t' = info_of s t /\
  map params1 (paired s t') = map params1 (paired s t).

Lemma tile_back : forall psize esize dsize big s t tw th image o r i T datas,
  framed s tw th -> length (t_comps t) = length (comps s) -> (forall c, 0 <= c < numcomps s -> dcshift (at_ (t_comps t) c) = shift_of (look comp0 (comps s) c)) ->
  order_of (t_prg t) = Some o -> 1 <= t_layers t <= 999 -> flags_ok (style_of t) -> image_ok s image -> (1 < tw * th -> through_bytes s) -> 0 <= i < tw * th ->
  tile_coded psize esize dsize big s t tw (tw * th) image o r i T ->
  encode_tile psize esize big s t tw (tw * th) image r i = Some datas ->
  exists n0, forall t', read_as s t t' -> forall buf fresh, exists d', (forall fuel, (n0 <= fuel)%nat -> decode_data psize dsize fuel s tw buf fresh i t' (concat datas) = Some (T, d')) /\
    forall c, 0 <= c < numcomps s -> exists F comp, frame s c = Some F /\ tile_comp T c = Some comp /\
      forall x y, inside comp x y -> inside F x y /\ d' c (place_in comp x y) = image c (place_in F x y).
Proof.
  intros psize esize dsize big s t tw th image o r i T datas HF L HD HO HN HFl HI HB Hi K E.
  destruct K as [KT KW KO KS KE KD (P & KL & KP) KM KN KX KY KB KA KK].
  unfold encode_tile in E. rewrite KT in E. destruct (tile_input big s T (tw * th) image (r_dest r)) as [d |] eqn:ED; [| discriminate].
  destruct (analyse T (info_of s t) (with_mct t) (r_tmp r) d) as [coef |] eqn:EA; [| discriminate].
  destruct (write_parts _ _ _ _ _) as [[datas' es'] |] eqn:EW; [| discriminate]. apply some_inj in E. subst datas'.
  destruct (tile_of_shape s t tw i T L KT) as (_ & NL & NC & _).
  destruct (input_ok big s t tw th i T image (r_dest r) HF L Hi KT HI HB KX KY) as (dd & ED' & IN). rewrite ED in ED'. apply some_inj in ED'. subst dd.
  pose proof HF as (_ & _ & _ & HC & _). pose proof (input_samples s t T d P image L NC HC HI HD KP IN KX) as SO.
  pose proof (c59_fit T (style_of t) (info_of s t) P (with_mct t) d (r_tmp r) coef KW KS SO KL KM KN EA) as FP.
  destruct (c59_samples T o (style_of t) (info_of s t) P (with_mct t) psize esize dsize (t_csty t) (Z.to_nat (t_layers t)) d (r_tmp r) coef (r_bufs r) (r_cuts r)
    KW KO ltac:(rewrite NL; lia) ltac:(lia) HFl KS KE KD SO KL KM EA FP KB (KA d coef eq_refl EA)) as (out & EN & (gs & EG & n0 & DR) & _ & TR).
  assert (out = concat (map snd (r_parts r))) by (eapply encodes_one; eassumption). subst out.
  destruct (TR (r_packno r) (r_parts r) datas es' [] eq_refl EW (Forall_nil _)) as (ds' & RD & SY). rewrite app_nil_r in RD.
  exists n0. intros t' (Q1 & Q2 & Q3 & Q4 & Q5 & Q6 & Q7 & Q8) buf fresh. destruct (SY (buf i) (fresh i)) as (d' & ES & SA). exists d'. split.
  - intros fuel Hf. unfold decode_data. assert (tile_of s t' tw i = Some T) as -> by (rewrite <- KT; unfold tile_of; rewrite Q3, Q8; reflexivity).
    assert (PO : packets_of fuel T t' = Some (concat (map snd (r_parts r)))).
    { unfold packets_of, volumes. rewrite Q5, Q2, HO. change (whole (t_x0 T) (t_y0 T) (t_x1 T) (t_y1 T) (PiSpec.t_layers T) (PiSpec.t_comps T) o) with (all_of T o). rewrite EG. apply DR, Hf. }
    rewrite PO. unfold with_mct in *. rewrite Q1, Q4, Q6, Q7.
    change (read_packets (fun c => s_sty (style_of t c)) (t_csty t) (fun _ => true) (at_place (dec_place psize dsize T (style_of t))) (concat (map snd (r_parts r))) (concat datas) = Some (ds', [])) in RD.
    rewrite RD, ES. reflexivity.
  - intros c Hc. destruct (IN c Hc) as (F & comp & EF & EC & HS). exists F, comp. split; [exact EF |]. split; [exact EC |]. intros x y I. destruct (HS x y I) as [I' EQ]. split; [exact I' |].
    rewrite <- EQ. apply (SA c comp _ ltac:(lia) EC). apply place_bounds, I.
Qed.

(** Coding succeeds when tile-parts have room. *)
Lemma tile_codes : forall psize esize dsize big s t tw th image o r i T, let with_parts := fun parts => mkRun (r_dest r) (r_tmp r) (r_bufs r) (r_cuts r) (r_packno r) parts in
  framed s tw th -> length (t_comps t) = length (comps s) -> (forall c, 0 <= c < numcomps s -> dcshift (at_ (t_comps t) c) = shift_of (look comp0 (comps s) c)) ->
  1 <= t_layers t <= 999 -> flags_ok (style_of t) -> image_ok s image -> (1 < tw * th -> through_bytes s) -> 0 <= i < tw * th ->
  tile_coded psize esize dsize big s t tw (tw * th) image o r i T ->
  exists R, forall parts, concat (map snd parts) = concat (map snd (r_parts r)) -> Forall (fun p => R * Z.of_nat (length (snd p)) <= fst p < 2 ^ 32) parts ->
    exists datas, encode_tile psize esize big s t tw (tw * th) image (with_parts parts) i = Some datas.
Proof.
  intros psize esize dsize big s t tw th image o r i T with_parts HF L HD HN HFl HI HB Hi K.
  destruct K as [KT KW KO KS KE KD (P & KL & KP) KM KN KX KY KB KA KK].
  destruct (input_ok big s t tw th i T image (r_dest r) HF L Hi KT HI HB KX KY) as (d & ED & IN).
  destruct (tile_of_shape s t tw i T L KT) as (_ & NL & NC & _).
  pose proof HF as (_ & _ & _ & HC & _). pose proof (input_samples s t T d P image L NC HC HI HD KP IN KX) as SO.
  destruct (c59_coefficients T (style_of t) (info_of s t) P (with_mct t) d (r_tmp r) KW KS SO KL KM) as (coef & EA & _).
  pose proof (c59_fit T (style_of t) (info_of s t) P (with_mct t) d (r_tmp r) coef KW KS SO KL KM KN EA) as FP.
  destruct (c59_samples T o (style_of t) (info_of s t) P (with_mct t) psize esize dsize (t_csty t) (Z.to_nat (t_layers t)) d (r_tmp r) coef (r_bufs r) (r_cuts r)
    KW KO ltac:(rewrite NL; lia) ltac:(lia) HFl KS KE KD SO KL KM EA FP KB (KA d coef ED EA)) as (out & EN & _ & (R & RM) & _).
  assert (out = concat (map snd (r_parts r))) by (eapply encodes_one; eassumption). subst out.
  exists R. intros parts EP RO. destruct (RM (r_packno r) parts EP RO) as (bytes & es' & EW).
  exists bytes. unfold encode_tile. rewrite KT. cbn [with_parts r_dest r_tmp r_bufs r_cuts r_packno r_parts]. rewrite ED, EA.
  change (write_parts (t_csty t) (r_packno r) (PiSpec.t_layers T) (at_place (enc_place psize esize T (style_of t) coef (r_bufs r) (r_cuts r))) parts = Some (bytes, es')) in EW.
  rewrite EW. reflexivity.
Qed.

(** ** The output image *)

Lemma same0 : forall a p, ceil_of a (2 ^ 0) p -> p = a.
Proof. unfold ceil_of. intros. change (2 ^ 0) with 1 in *. lia. Qed.
Lemma whole_axis : forall c, 0 <= fst c < 2 ^ 31 -> 0 <= snd c < 2 ^ 31 -> res_axis c 0 = c.
Proof.
  intros [a b] A B. cbn [fst snd] in *. unfold res_axis. cbn [fst snd].
  rewrite (same0 a _ (c29_int_ceildivpow2 a 0 ltac:(unfold in_i32; lia) ltac:(lia))), (same0 b _ (c29_int_ceildivpow2 b 0 ltac:(unfold in_i32; lia) ltac:(lia))). reflexivity.
Qed.
Lemma whole_pow : forall a, is_u32 a -> uint_ceildivpow2 a 0 = a.
Proof. intros a H. apply same0, c29_uint_ceildivpow2; [exact H | lia]. Qed.

Lemma frame_some : forall s tw th c, framed s tw th -> 0 <= c < numcomps s -> exists F, frame s c = Some F /\
  0 <= fst (fst F) <= snd (fst F) /\ snd (fst F) < 2 ^ 31 /\ 0 <= fst (snd F) <= snd (snd F) /\ snd (snd F) < 2 ^ 31 /\
  ceil_of (x0 s) (c_dx (look comp0 (comps s) c)) (fst (fst F)) /\ ceil_of (x1 s) (c_dx (look comp0 (comps s) c)) (snd (fst F)) /\
  ceil_of (y0 s) (c_dy (look comp0 (comps s) c)) (fst (snd F)) /\ ceil_of (y1 s) (c_dy (look comp0 (comps s) c)) (snd (snd F)).
Proof.
  intros s tw th c (H & Hx & Hy & HC & _) Hc. pose proof (comp_at s c HC Hc) as (_ & _ & Dx & Dy). unfold frame, extent_of. set (dx := c_dx _) in *. set (dy := c_dy _) in *.
  destruct (header_axes _ _ _ _ _ _ H) as (_ & _ & _ & Ax & Ay). destruct H as (U1 & U2 & U3 & U4 & U5 & U6 & U7 & U8 & _). cbn [fst snd] in *.
  apply siz_axis_spec in Ax; try assumption. apply siz_axis_spec in Ay; try assumption. unfold is_u32 in *.
  destruct (comp_rect_some (x0 s, x1 s) (y0 s, y1 s) dx dy) as (F & EF); cbn [fst snd]; try lia.
  destruct (comp_rect_ceil (x0 s, x1 s) (y0 s, y1 s) dx dy F) as (F1 & F2 & F3 & F4); cbn [fst snd]; try lia; try assumption. cbn [fst snd] in *.
  exists F. split; [exact EF |].
  pose proof (ceil_nonneg (x0 s) dx _ ltac:(lia) ltac:(lia) F1). pose proof (ceil_nonneg (x1 s) dx _ ltac:(lia) ltac:(lia) F2). pose proof (ceil_nonneg (y0 s) dy _ ltac:(lia) ltac:(lia) F3). pose proof (ceil_nonneg (y1 s) dy _ ltac:(lia) ltac:(lia) F4).
  pose proof (ceil_mono (x0 s) (x1 s) dx _ _ ltac:(lia) ltac:(lia) F1 F2). pose proof (ceil_mono (y0 s) (y1 s) dy _ _ ltac:(lia) ltac:(lia) F3 F4). repeat (split; [lia |]). tauto.
Qed.

(** image.rs:379-410 gives the component of the image its place. *)
Lemma update_frame : forall s tw th c F, framed s tw th -> 0 <= c < numcomps s -> frame s c = Some F ->
  header_update s tw th 0 (look comp0 (comps s) c) = Some (mkOutput (fst (fst F)) (fst (snd F)) 0 (width (fst F)) (width (snd F)) None).
Proof.
  intros s tw th c F HF Hc EF. destruct (frame_some s tw th c HF Hc) as (F' & EF' & B1 & B2 & B3 & B4 & C1 & C2 & C3 & C4). rewrite EF in EF'. apply some_inj in EF'. subst F'.
  destruct HF as (H & Hx & Hy & HC & _). pose proof (comp_at s c HC Hc) as (_ & _ & Dx & Dy). set (q := look comp0 (comps s) c) in *.
  destruct (header_axes _ _ _ _ _ _ H) as (W1 & W2 & W3 & Ax & Ay). destruct H as (U1 & U2 & U3 & U4 & U5 & U6 & U7 & U8 & _). cbn [fst snd] in *.
  apply siz_axis_spec in Ax; try assumption. apply siz_axis_spec in Ay; try assumption. destruct Ax as (A1 & A2 & A3 & A4 & _), Ay as (a1 & a2 & a3 & a4 & _). unfold is_u32, ceil_of in *.
  unfold header_update.
  assert (X : Z.min (uint_adds (u32 (tx0 s + u32 (u32 (tw - 1) * tdx s))) (tdx s)) (x1 s) = x1 s).
  { assert (tw <= 65535) by nia. assert (0 <= (tw - 1) * tdx s) by nia. rewrite (u32_id (tw - 1)) by lia. rewrite (u32_id (_ * _)) by lia. rewrite u32_id by lia. unfold uint_adds. lia. }
  assert (Y : Z.min (uint_adds (u32 (ty0 s + u32 (u32 (th - 1) * tdy s))) (tdy s)) (y1 s) = y1 s).
  { assert (th <= 65535) by nia. assert (0 <= (th - 1) * tdy s) by nia. rewrite (u32_id (th - 1)) by lia. rewrite (u32_id (_ * _)) by lia. rewrite u32_id by lia. unfold uint_adds. lia. }
  rewrite X, Y. rewrite (Z.max_r (tx0 s) (x0 s)), (Z.max_r (ty0 s) (y0 s)) by lia.
  destruct (c29_uint_ceildiv (x0 s) (c_dx q)) as (p1 & -> & D1); [unfold is_u32; lia .. |]. destruct (c29_uint_ceildiv (y0 s) (c_dy q)) as (p2 & -> & D2); [unfold is_u32; lia .. |].
  destruct (c29_uint_ceildiv (x1 s) (c_dx q)) as (p3 & -> & D3); [unfold is_u32; lia .. |]. destruct (c29_uint_ceildiv (y1 s) (c_dy q)) as (p4 & -> & D4); [unfold is_u32; lia .. |].
  rewrite (ceil_unique (x0 s) (c_dx q) _ _ ltac:(lia) D1 C1), (ceil_unique (y0 s) (c_dy q) _ _ ltac:(lia) D2 C3), (ceil_unique (x1 s) (c_dx q) _ _ ltac:(lia) D3 C2), (ceil_unique (y1 s) (c_dy q) _ _ ltac:(lia) D4 C4).
  unfold width. rewrite !u32_id by lia. rewrite !whole_pow by (unfold is_u32; lia). reflexivity.
Qed.
