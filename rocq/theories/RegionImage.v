(** Property C67: an area of the image comes back from the code-stream. *)

From Coq Require Import ZArith List Bool Arith Lia ZifyNat.
From Verif Require Import I32 Ints Mem MathModel MathProps CioModel GeomModel GeomProofs GeomProps PiModel PiSpec PiProps T1Model T1Props T2PacketModel T2PacketProps CblkModel TileModel TileProofs ShiftModel ShiftProps SampleModel SampleProofs SampleProps
  TileDataModel AssembleModel AssembleProps PltModel PltSpec PltProps PartModel PartSpec PartWrite PartProps HdrModel HdrSpec HdrRun CodecModel CodecProofs CodecInput CodecTiles CodecGather CodecProps
  RegionModel RegionAxis RegionProps RegionTiles RegionGather.
From Verif Require GeomCover AreaProofs AreaComp AreaModel.
Import ListNotations.
Local Open Scope Z_scope.
Ltac Zify.zify_post_hook ::= idtac.
Local Notation inside := GeomProps.inside.

(** A sample of component [c] is of the area if its position on the reference
    grid is in the image and in the area. *)
Definition in_area (s : siz) (ask : rect) (c x y : Z) : Prop :=
  let q := look comp0 (comps s) c in inside (extent_of s) (x * c_dx q) (y * c_dy q) /\ inside ask (x * c_dx q) (y * c_dy q).
(** The area meets the tile. *)
Definition meets (T : tile) (ask : rect) : Prop := exists x y, inside ((t_x0 T, t_x1 T), (t_y0 T, t_y1 T)) x y /\ inside ask x y.

Lemma outputs : forall s tw th ask sel os c, framed s tw th -> coords ask -> ask <> nothing -> set_decode_area s tw th 0 ask = Some (sel, os) -> 0 <= c < numcomps s -> (exists x y, inside (sel_win sel) (x * c_dx (look comp0 (comps s) c)) (y * c_dy (look comp0 (comps s) c))) ->
  exists o, nth_error os (Z.to_nat c) = Some o /\ output_ok o.
Proof.
  intros s tw th ask sel os c HF HC HN E Hc (sx & sy & IS). pose proof HF as (_ & _ & _ & HCo & _). destruct (framed_axes s tw th HF) as (Ax & Ay & _). unfold axis_ok in *.
  assert (B : 0 <= fst (fst (sel_win sel)) < 2 ^ 31 /\ 0 <= snd (fst (sel_win sel)) < 2 ^ 31 /\ 0 <= fst (snd (sel_win sel)) < 2 ^ 31 /\ 0 <= snd (snd (sel_win sel)) < 2 ^ 31).
  { unfold set_decode_area in E. destruct (select s tw th ask) as [sel' |] eqn:ES; [| discriminate]. destruct (all_some _); [| discriminate]. apply some_inj in E. injection E as -> _.
    pose proof (selecting s tw th ask HF HC HN) as SE. destruct ask as [[ax0 ax1] [ay0 ay1]]. unfold coords, in_i32 in HC. cbn [fst snd] in *. rewrite ES in SE. destruct SE as (ex & ey & -> & _ & _ & P & Q). cbn [sel_win fst snd]. clear - P Q HC Ax Ay. lia. }
  destruct (c66_components s tw th 0 ask sel os HF ltac:(lia) HC E) as [LO _].
  unfold set_decode_area in E. destruct (select s tw th ask) as [sel' |]; [| discriminate]. destruct (all_some _) as [os' |] eqn:EA; [| discriminate]. apply some_inj in E. injection E as -> ->.
  destruct (GeomCover.all_some_nth _ _ EA) as [_ NO]. assert (N : (Z.to_nat c < length os)%nat) by (unfold numcomps in Hc; lia). destruct (nth_error os (Z.to_nat c)) as [o |] eqn:EO; [| apply nth_error_None in EO; lia].
  exists o. split; [reflexivity |].
  assert (ED : dims (sel_win sel) 0 (look comp0 (comps s) c) = Some o).
  { apply NO in EO. rewrite nth_error_map in EO. unfold look. destruct (nth_error (comps s) (Z.to_nat c)) as [q |] eqn:Eq; [| discriminate]. cbn [option_map] in EO. apply some_inj in EO. rewrite (nth_error_nth _ _ _ Eq). exact EO. }
  destruct B as (B1 & B2 & B3 & B4). pose proof (dims_spec s (sel_win sel) 0 c HCo ltac:(lia) Hc B1 B2 B3 B4) as D. cbn zeta in D. rewrite ED in D. destruct D as (_ & _ & IO & _ & _ & P1 & P2 & P3 & P4 & P5 & P6 & _).
  rewrite Z.pow_0_r in IO. specialize (IO sx sy). rewrite !Z.mul_1_r in IO. pose proof (proj2 IO IS) as I. unfold GeomProps.inside, GeomProofs.within, out_rect in I. cbn [fst snd] in I. unfold output_ok. lia.
Qed.

(** ** Theorem *)

(** The tiles that meet the area having been coded with all their passes (the
    others may hold anything), and memory not running out: decoding the area gives
    in each component exactly the samples of the area, as they were. *)
Theorem c67_area : forall psize esize dsize big ihdr e old image o tw th (runs : Z -> run) (T : Z -> tile) (parts : Z -> list (list Z * list Z)) ask,
  coding_ok ihdr e tw th o image -> coords ask -> 0 <= fst (fst ask) -> 0 <= fst (snd ask) ->
  (forall c, 0 <= c < numcomps (e_siz e) -> exists x y, in_area (e_siz e) ask c x y) ->
  (forall i, 0 <= i < tw * th -> parts_ok (parts i)) ->
  (forall i, 0 <= i < tw * th -> tile_of (e_siz e) (e_tcp e) tw i = Some (T i) /\ (meets (T i) ask -> tile_coded psize esize dsize big (e_siz e) (e_tcp e) tw (tw * th) image o (runs i) i (T i) /\ area_able (T i) (style_of (e_tcp e)) /\
    encode_tile psize esize big (e_siz e) (e_tcp e) tw (tw * th) image (runs i) i = Some (map snd (parts i)))) ->
  exists hd n0, write_header e old = Some hd /\
  forall alloc fuel buf fresh junk other handle strict seekable fails, (n0 <= fuel)%nat -> (forall i c j, alloc i c j = true) -> exists outs,
    decode_image_area alloc psize dsize fuel buf fresh junk other (with_plt handle) ihdr strict seekable fails ask (hd ++ write_tiles 0 (map parts (tiles (tw * th)))) = Some outs /\
    Z.of_nat (length outs) = numcomps (e_siz e) /\
    forall c, 0 <= c < numcomps (e_siz e) -> exists F out m, frame (e_siz e) c = Some F /\ nth_error outs (Z.to_nat c) = Some out /\ odata out = Some m /\
      (forall x y, inside (out_rect out) x y <-> in_area (e_siz e) ask c x y) /\
      forall x y, in_area (e_siz e) ask c x y -> inside F x y /\ pixel out m x y = image c (place_in F x y).
Proof.
  intros psize esize dsize big ihdr e old image o tw th runs T parts ask K HK A1 A2 HA HP H. destruct (coding_framed _ _ _ _ _ _ K) as [HF L].
  destruct K as [KH KS KL KP KO K9 KF KZ KT KI KB]. pose proof (header_axes _ _ _ _ _ _ (proj1 HF)) as (W1 & W2 & W3 & _). assert (NB : 1 <= tw * th) by nia.
  assert (NE0 : parts 0 <> []) by (destruct (HP 0 ltac:(lia)) as (A & _); exact A).
  destruct (tiles_start parts (tw * th) NB NE0) as (rest & ER).
  destruct (read_back ihdr e (fun _ h _ => Some h) old rest KH KS KL KP) as (hd & _ & EH & _).
  assert (HD : forall c, 0 <= c < numcomps (e_siz e) -> dcshift (at_ (t_comps (e_tcp e)) c) = shift_of (look comp0 (comps (e_siz e)) c)) by (intros c Hc; apply (KL c Hc)).
  assert (HN : 1 <= t_layers (e_tcp e) <= 999) by (destruct KH as (_ & _ & _ & _ & _ & A & _); lia).
  assert (NC : 1 <= numcomps (e_siz e)) by (destruct KH as ((_ & _ & _ & A & _) & _); lia).
  (* the area *)
  assert (PX : exists x y, inside (extent_of (e_siz e)) x y /\ inside ask x y) by (destruct (HA 0 ltac:(lia)) as (x & y & A); eexists; eexists; exact A).
  pose proof (in_image _ _ _ _ HF HK PX) as NN.
  assert (AC : set_decode_area (e_siz e) tw th 0 ask <> None).
  { apply (c66_accepted (e_siz e) tw th 0 ask HF ltac:(lia) HK).
    - destruct PX as (x & y & _ & I). unfold GeomProps.inside, GeomProofs.within in I. unfold not_empty. lia.
    - destruct PX as (x & y & J & I). destruct (framed_axes _ _ _ HF) as (Ax & Ay & _). unfold axis_ok in *. unfold GeomProps.inside, GeomProofs.within, extent_of in I, J. cbn [fst snd] in J. clear - I J A1 A2. lia. }
  destruct (set_decode_area (e_siz e) tw th 0 ask) as [[sel os] |] eqn:ES; [| contradiction]. clear AC.
  destruct (c66_selected _ _ _ _ _ _ _ HF HK PX ES) as [SW ST]. destruct (c66_components (e_siz e) tw th 0 ask sel os HF ltac:(lia) HK ES) as [LO CO].
  assert (BW : 0 <= fst (fst (sel_win sel)) < snd (fst (sel_win sel)) /\ snd (fst (sel_win sel)) < 2 ^ 31 /\ 0 <= fst (snd (sel_win sel)) < snd (snd (sel_win sel)) /\ snd (snd (sel_win sel)) < 2 ^ 31).
  { destruct PX as (px & py & PX). destruct (framed_axes _ _ _ HF) as (Ax & Ay & _). unfold axis_ok in *. pose proof (proj2 (SW px py) PX) as I. destruct (sel_win sel) as [[a b] [g f]].
    unfold GeomProps.inside, GeomProofs.within, extent_of in SW, I. cbn [fst snd] in *. pose proof (proj1 (SW a g) ltac:(lia)) as J1. pose proof (proj1 (SW (b - 1) (f - 1)) ltac:(lia)) as J2. clear - I J1 J2 Ax Ay. lia. }
  assert (MT : forall i, 0 <= i < tw * th -> selected sel tw i = true -> meets (T i) ask /\ AreaProofs.overlaps (T i) (sel_win sel)).
  { intros i Hi Wi. destruct (H i Hi) as [ET _]. destruct (tile_of_shape _ _ _ _ _ L ET) as (ERi & _). destruct (proj1 (ST i _ Hi ERi) Wi) as (x & y & I & J). split; [exists x, y; split; assumption |].
    destruct (c28_tiles_exist _ _ _ _ _ _ i (proj1 HF) (proj1 (proj2 HF)) (proj1 (proj2 (proj2 HF))) Hi) as (r & Er & _ & _ & Inn). rewrite ERi in Er. apply some_inj in Er. subst r.
    pose proof (proj2 (SW x y) (conj (Inn x y I) J)) as IW. unfold GeomProps.inside, GeomProofs.within in I, IW. cbn [fst snd] in I. unfold AreaProofs.overlaps. clear - I IW BW. lia. }
  destruct (common (fun i k => selected sel tw i = true -> forall t', read_as (e_siz e) (e_tcp e) t' -> forall alloc buf fresh, (forall i c j, alloc i c j = true) ->
      exists h, decode_shot alloc psize dsize k (e_siz e) tw (sel_win sel) buf fresh i t' (flat_map snd (parts i)) = Some h /\ sh_tile h = T i /\
      forall c, 0 <= c < numcomps (e_siz e) -> shows_part (e_siz e) (sel_win sel) image (T i) h c) (tw * th)) as (n0 & D).
  { intros i Hi. destruct (selected sel tw i) eqn:EI; [| exists 0%nat; discriminate]. destruct (MT i Hi EI) as [ME OV]. destruct (H i Hi) as [_ H']. destruct (H' ME) as (TC & AB & EE).
    assert (DL : Z.of_nat (length (concat (map snd (parts i)))) < 2 ^ 32). { rewrite <- flat_map_concat_map. destruct (HP i Hi) as (_ & _ & _ & A & _). unfold len in A. lia. }
    destruct (shot_back psize esize dsize big (e_siz e) (e_tcp e) tw th image o (runs i) i (T i) (map snd (parts i)) HF L HD KO HN KF KI KB Hi TC AB EE DL) as (m & X). exists m.
    intros k Hk _ t' RA alloc buf fresh AL. destruct (X t' RA alloc (sel_win sel) buf fresh (AL i) OV) as (h & E & TH & S). exists h. split; [| split; [exact TH | exact S]].
    rewrite flat_map_concat_map. apply E, Hk. }
  exists hd, n0. split; [exact EH |]. intros alloc fuel buf fresh junk other handle strict seekable fails Hf AL.
  destruct (read_back ihdr e other old rest KH KS KL KP) as (hd' & t' & EH' & RH & RA). rewrite EH in EH'. apply some_inj in EH'. subst hd'.
  pose proof (fun i Hi Wi => D fuel Hf i Hi Wi t' RA alloc buf fresh AL) as D'. clear D.
  set (res := fun i => match decode_shot alloc psize dsize fuel (e_siz e) tw (sel_win sel) buf fresh i t' (flat_map snd (parts i)) with Some r => r | None => mkShot (T i) true (fun _ => 0) (fun _ _ => 0) end).
  unfold decode_image_area. rewrite ER, RH. cbv beta iota. rewrite KT. cbv beta iota. rewrite ES. cbv beta iota.
  destruct (written_list parts (tiles (tw * th))) as (ws & V1 & V2 & V3 & V4); [intros i I; apply tiles_in in I; exact (HP i I) |].
  assert (TL : length (tiles (tw * th)) = Z.to_nat (tw * th)) by (unfold tiles; rewrite map_length, seq_length; reflexivity).
  assert (WL : len ws = tw * th) by (unfold len; rewrite V3, TL; lia).
  assert (EK : rest = skipn 2 (write_tiles 0 (map raw ws))) by (rewrite V1, ER; reflexivity).
  pose proof (c60_written (with_plt handle) (decode_shot alloc psize dsize fuel (e_siz e) tw (sel_win sel) buf fresh) (selected sel tw) strict seekable fails (fun _ => t') ws res V2) as DT.
  rewrite <- EK, WL in DT. rewrite DT; cycle 1.
  { intros ->. unfold len in WL. cbn in WL. lia. }
  { lia. }
  { intros i w Hi EW Wi. destruct (V4 _ _ EW) as (j & EJ & VD & VA). assert (j = i).
    { unfold tiles in EJ. rewrite nth_error_map in EJ. destruct (nth_error (seq 0 (Z.to_nat (tw * th))) (Z.to_nat i)) as [m |] eqn:EM; [| discriminate EJ]. cbn [option_map] in EJ. apply some_inj in EJ.
      assert (B : (Z.to_nat i < Z.to_nat (tw * th))%nat) by (rewrite <- (seq_length (Z.to_nat (tw * th)) 0); apply nth_error_Some; congruence).
      rewrite (nth_error_nth' _ 0%nat) in EM by (rewrite seq_length; exact B). rewrite seq_nth in EM by exact B. apply some_inj in EM. lia. }
    subst j. assert (Bi : 0 <= i < tw * th) by (apply tiles_in; eapply nth_error_In; exact EJ).
    exists t'. split; [apply VA |]. rewrite VD. unfold res. destruct (D' i Bi Wi) as (h & E & _). rewrite E. reflexivity. }
  set (LT := map (fun i => (i, res i)) (filter (selected sel tw) (tiles (tw * th)))).
  assert (G : forall c, 0 <= c < numcomps (e_siz e) -> exists oc F out, nth_error os (Z.to_nat c) = Some oc /\ frame (e_siz e) c = Some F /\ gather_area (e_siz e) tw th (sel_win sel) junk LT c oc = Some out /\
    (forall x y, inside (out_rect out) x y <-> in_area (e_siz e) ask c x y) /\ shows_area image c F out).
  { intros c Hc. destruct (CO c Hc) as (oc & EO & OF & OD & OI). rewrite Z.pow_0_r in OI.
    assert (OI' : forall x y, inside (out_rect oc) x y <-> inside (sel_win sel) (x * c_dx (look comp0 (comps (e_siz e)) c)) (y * c_dy (look comp0 (comps (e_siz e)) c))) by (intros x y; rewrite OI, !Z.mul_1_r; reflexivity). clear OI.
    destruct (outputs _ _ _ _ _ _ c HF HK NN ES Hc) as (oc' & EO' & OO).
    { destruct (HA c Hc) as (x & y & I). exists x, y. apply SW, I. }
    rewrite EO in EO'. apply some_inj in EO'. subst oc'.
    destruct (gathered_area (e_siz e) (e_tcp e) tw th (sel_win sel) junk (selected sel tw) res image c oc HF L Hc) as (F & out & EF & EG & RR & SA); try assumption.
    - intros x y I. apply SW, I.
    - intros i r x y Hi Er Ir Iw. apply (ST i r Hi Er). exists x, y. split; [exact Ir | apply SW, Iw].
    - intros i Hi Wi. destruct (D' i Hi Wi) as (h & E & TH & S). assert (ERi : res i = h) by (unfold res; rewrite E; reflexivity). rewrite ERi, TH. split; [exact (proj1 (H i Hi)) | exact (S c Hc)].
    - exists oc, F, out. split; [exact EO |]. split; [exact EF |]. split; [exact EG |]. split; [| exact SA]. intros x y. rewrite RR, OI'. apply SW. }
  assert (NL : Z.of_nat (length os) = numcomps (e_siz e)) by (unfold numcomps; lia).
  set (f := fun co : nat * output => gather_area (e_siz e) tw th (sel_win sel) junk LT (Z.of_nat (fst co)) (snd co)).
  assert (NTH : forall c oc, 0 <= c < numcomps (e_siz e) -> nth_error os (Z.to_nat c) = Some oc -> nth_error (combine (seq 0 (length os)) os) (Z.to_nat c) = Some (Z.to_nat c, oc)).
  { intros c oc Hc E. rewrite (nth_error_nth' _ (0%nat, oc)) by (rewrite combine_length, seq_length; lia). rewrite combine_nth by (rewrite seq_length; reflexivity). rewrite seq_nth by lia. rewrite (nth_error_nth _ _ oc E). reflexivity. }
  destruct (all_some (map f (combine (seq 0 (length os)) os))) as [outs |] eqn:EO.
  2: { exfalso. revert EO. apply all_some_total. intros co I. apply In_nth_error in I. destruct I as (k & EN).
       assert (Hk : (k < length os)%nat). { assert (k < length (combine (seq 0 (length os)) os))%nat by (apply nth_error_Some; congruence). rewrite combine_length, seq_length in *. lia. }
       destruct (G (Z.of_nat k) ltac:(lia)) as (oc & F & out & E1 & _ & E2 & _). pose proof (NTH (Z.of_nat k) oc ltac:(lia) E1) as E3. rewrite Nat2Z.id in E3. rewrite EN in E3. apply some_inj in E3. subst co. unfold f. cbn [fst snd]. rewrite E2. discriminate. }
  exists outs. split; [reflexivity |]. destruct (GeomCover.all_some_nth _ _ EO) as [LN NO]. rewrite map_length, combine_length, seq_length in LN.
  split; [lia |]. intros c Hc. destruct (G c Hc) as (oc & F & out & E1 & EF & EG & IO & (m & OM & SM)). exists F, out, m. split; [exact EF |]. split.
  { apply NO. rewrite nth_error_map, (NTH c oc Hc E1). cbn [option_map]. unfold f. cbn [fst snd]. rewrite Z2Nat.id by lia. f_equal. exact EG. }
  split; [exact OM |]. split; [exact IO |]. intros x y I. apply SM, IO, I.
Qed.

(** ** What does not hold *)

(** An area without any sample of a sub-sampled component is accepted, but its
    decoding fails. Two by one pixels, the second component at half width; the
    right pixel alone is asked for. *)
Definition half_siz : siz := mkSiz 0 2 1 0 0 2 1 0 0 [mkComp 8 0 1 1; mkComp 8 0 2 1].
Definition half_tccp : tccp := mkT 0 1 6 6 0 1 (fun _ => 15) (fun _ => 15) 0 2 (fun b => nth (Z.to_nat b) [8] 0) (fun _ => 0) 0 128.
Definition half : enc := mkEnc half_siz (mkTcp 0 0 1 0 [half_tccp; half_tccp] []) None None.
Definition half_image (c k : Z) : Z := 100 + 3 * c + 20 * k.
Definition half_tile : tile := match tile_of half_siz (e_tcp half) 1 0 with Some T => T | None => PiSpec.mkTile 0 0 0 0 0 [] end.
Definition half_coef : planes_t :=
  match tile_input false half_siz half_tile 1 half_image [] with
  | Some d => match analyse half_tile (info_of half_siz (e_tcp half)) false (fun _ => zeroes) d with Some coef => coef | None => fun _ _ => 0 end
  | None => fun _ _ => 0
  end.
Definition half_run : run := mkRun [] (fun _ => zeroes) (fun _ => zeroes) (fun q => [demo_count half_tile (style_of (e_tcp half)) half_coef q]) 0 [(1000, [(0, 0, 0, 0); (0, 0, 1, 0)])].
Definition half_parts (i : Z) : list (list Z * list Z) :=
  match encode_tile 24 64 false half_siz (e_tcp half) 1 1 half_image half_run i with Some l => map (fun d => ([], d)) l | None => [] end.
Definition half_stream : list Z := match write_header half (fun _ => []) with Some hd => hd ++ write_tiles 0 (map half_parts (tiles 1)) | None => [] end.
Definition decoded_area (ask : rect) (bytes : list Z) : option (list (Z * Z * option (list Z))) :=
  option_map (map (fun o => (ow o, oh o, option_map (fun m => map m (GeomModel.upto (ow o * oh o))) (odata o))))
    (decode_image_area (fun _ _ _ => true) 24 88 50 (fun _ _ => zeroes) (fun _ _ _ => 999) (fun _ _ => 888) (fun _ _ _ => None) (with_plt (fun _ _ _ _ => None)) (0, 0) true true false ask bytes).

Theorem c67_subsampled_refuted : exists ask,
  (exists x y, inside (extent_of half_siz) x y /\ inside ask x y) /\ set_decode_area half_siz 1 1 0 ask <> None /\
  decoded_area ((0, 2), (0, 1)) half_stream = Some [(2, 1, Some [100; 120]); (1, 1, Some [103])] /\
  decoded_area ask half_stream = None.
Proof.
  exists ((1, 2), (0, 1)). split; [exists 1, 0; unfold GeomProps.inside, GeomProofs.within; cbn; lia |]. split; [vm_compute; discriminate |]. split; vm_compute; reflexivity.
Qed.

(** ** Examples *)

(** The image of C63: areas in both tiles and in the second only. *)
Example c67_both : decoded_area ((3, 5), (1, 3)) two_stream = Some [(2, 2, Some (map (two_image 0) [9; 10; 15; 16]))].
Proof. vm_compute. reflexivity. Qed.
Example c67_second : decoded_area ((5, 9), (0, 2)) two_stream = Some [(1, 2, Some (map (two_image 0) [5; 11]))].
Proof. vm_compute. reflexivity. Qed.

(** An instance of the theorem: the first tile may be anything. *)
Example c67_other : forall p0, parts_ok p0 -> exists hd n0, write_header two (fun _ => []) = Some hd /\
  forall alloc fuel buf fresh junk other handle strict seekable fails, (n0 <= fuel)%nat -> (forall i c j, alloc i c j = true) -> exists outs,
    decode_image_area alloc 24 88 fuel buf fresh junk other (with_plt handle) (0, 0) strict seekable fails ((5, 9), (0, 2)) (hd ++ write_tiles 0 [p0; two_parts 1]) = Some outs /\
    Z.of_nat (length outs) = 1 /\
    forall c, 0 <= c < 1 -> exists F out m, frame two_siz c = Some F /\ nth_error outs (Z.to_nat c) = Some out /\ odata out = Some m /\
      (forall x y, inside (out_rect out) x y <-> in_area two_siz ((5, 9), (0, 2)) c x y) /\
      forall x y, in_area two_siz ((5, 9), (0, 2)) c x y -> inside F x y /\ pixel out m x y = two_image c (place_in F x y).
Proof.
  intros p0 HP0. apply (c67_area 24 64 88 false (0, 0) two (fun _ => []) two_image LRCP 2 1 two_run two_tile (fun i => if i =? 0 then p0 else two_parts i) ((5, 9), (0, 2)) two_coding).
  - unfold coords, in_i32. cbn. lia.
  - cbn. lia.
  - cbn. lia.
  - intros c Hc. assert (c = 0) as -> by (cbn in Hc; lia). exists 5, 0. unfold in_area, GeomProps.inside, GeomProofs.within. cbn. lia.
  - intros i Hi. destruct (Z.eqb_spec i 0); [exact HP0 |]. apply (two_tiles i Hi).
  - intros i Hi. destruct (two_tiles i Hi) as (TC & EE & _). split; [exact (tc_tile _ _ _ _ _ _ _ _ _ _ _ _ _ TC) |]. intros (x & y & A & B). assert (I2 : i = 0 \/ i = 1) by lia. destruct I2 as [-> | ->].
    { exfalso. assert (E : t_x1 (two_tile 0) = 4) by (vm_compute; reflexivity). unfold GeomProps.inside, GeomProofs.within in A, B. rewrite E in A. cbn [fst snd] in A, B. lia. }
    split; [exact TC |]. split; [| exact EE].
    assert (CE : tile_comp (two_tile 1) 0 = Some ((4, 6), (0, 3))) by (vm_compute; reflexivity). assert (C0 : forall c, 0 <= c < count (two_tile 1) -> c = 0) by (intros c Hc; change (count (two_tile 1)) with 1 in Hc; lia).
    split; [| split; [| split]].
    + intros c r comp [Hc Hr] E. fold (count (two_tile 1)) in Hc. rewrite (C0 c Hc) in *. rewrite CE in E. apply some_inj in E. subst comp. assert (NR : nres (par (two_tile 1) 0) = 2) by reflexivity. rewrite NR in Hr. assert (r = 0 \/ r = 1) as [-> | ->] by lia; vm_compute; split; discriminate.
    + intros c Hc. fold (count (two_tile 1)) in Hc. rewrite (C0 c Hc). right. rewrite CE. discriminate.
    + intros c comp Hc E. rewrite (C0 c Hc) in E. rewrite CE in E. apply some_inj in E. subst comp. cbn. lia.
    + intros c Hc. rewrite (C0 c Hc). reflexivity.
Qed.

Print Assumptions c67_area.
Print Assumptions c67_subsampled_refuted.
