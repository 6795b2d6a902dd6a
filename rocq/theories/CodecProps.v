(** Property C63: a whole image comes back from its code-stream. *)

From Coq Require Import ZArith List Bool Arith Lia ZifyNat.
From Verif Require Import I32 Ints Mem MathModel MathProps CioModel GeomModel GeomProofs GeomProps PiModel PiSpec PiProps T1Model T1Props T2PacketModel T2PacketProps CblkModel TileModel TileProofs ShiftModel ShiftProps SampleModel SampleProofs SampleProps
  TileDataModel AssembleModel PltModel PltSpec PltProps PartModel PartSpec PartWrite PartProps HdrModel HdrSpec HdrRun CodecModel CodecProofs CodecInput CodecTiles CodecGather.
Import ListNotations.
Local Open Scope Z_scope.

(** ** Statement *)

(** The image and the coding parameters: reversible, without progression changes. *)
Record coding_ok (ihdr : Z * Z) (e : enc) (tw th : Z) (o : PiModel.order) (image : planes_t) : Prop := {
  co_header : enc_ok ihdr 0 e;
  co_style : one_style e;
  co_lossless : lossless e;
  co_poc : has_poc e = false;
  co_order : order_of (t_prg (e_tcp e)) = Some o;
  co_layers : t_layers (e_tcp e) <= 999;
  co_flags : flags_ok (style_of (e_tcp e));
  co_size : x1 (e_siz e) < 2 ^ 31 /\ y1 (e_siz e) < 2 ^ 31;
  co_tiles : tiles_of (e_siz e) = Some (tw, th);
  co_samples : image_ok (e_siz e) image;
  co_bytes : 1 < tw * th -> through_bytes (e_siz e) }.

(** The tile-parts of a tile, with no heads or the lengths of packets. *)
Definition heads_ok (h : list Z) : Prop := h = [] \/ exists sizes, Forall is_u32 sizes /\ write_plt sizes = All h.
Definition parts_ok (ps : list (list Z * list Z)) : Prop :=
  ps <> [] /\ len ps <= 255 /\ flat_map snd ps <> [] /\ len (flat_map snd ps) <= 2 ^ 32 - 3 /\
  Forall (fun p => heads_ok (fst p) /\ 14 + len (fst p) + len (snd p) < 2 ^ 32) ps.

(** ** Proofs *)

Lemma coding_framed : forall ihdr e tw th o image, coding_ok ihdr e tw th o image -> framed (e_siz e) tw th /\ length (t_comps (e_tcp e)) = length (comps (e_siz e)).
Proof.
  intros ihdr e tw th o image K. destruct (co_header _ _ _ _ _ _ K) as ((_ & (X1 & X2 & X3 & X4) & (Y1 & Y2 & Y3 & Y4) & N & C & _) & _ & L & _). destruct (co_size _ _ _ _ _ _ K) as [Sx Sy].
  split; [| unfold numcomps in L; lia]. split; [| tauto]. unfold header. cbn [fst snd]. unfold is_u32. do 8 (split; [lia |]). exact (co_tiles _ _ _ _ _ _ K).
Qed.

Lemma parts_written : forall ps, parts_ok ps -> exists w : written, raw w = ps /\ PartWrite.tile_ok w /\ flat_map snd w = flat_map snd ps /\
  forall C (handle : Z -> Z -> C -> list Z -> option C) i c, after (with_plt handle) i c (flat_map fst w) = Some c.
Proof.
  intros ps (NE & LE & DN & DL & F).
  assert (X : exists w : written, raw w = ps /\ flat_map snd w = flat_map snd ps /\ length w = length ps /\
    (forall C (handle : Z -> Z -> C -> list Z -> option C) i c, after (with_plt handle) i c (flat_map fst w) = Some c) /\
    Forall (fun x => Forall (fun sg => in_header (fst sg) /\ len (snd sg) <= 65533) (fst x) /\ 14 + len (flat_map seg_bytes (fst x)) + len (snd x) < 2 ^ 32) w).
  { clear NE LE DN DL. induction F as [| [h data] ps [H L] _ (w & I1 & I2 & I3 & I4 & I5)]; cbn [fst snd] in *.
    - exists []. split; [reflexivity |]. split; [reflexivity |]. split; [reflexivity |]. split; [reflexivity | constructor].
    - destruct H as [-> | (sizes & U & W)].
      + exists (([], data) :: w). cbn [raw map flat_map fst snd length app]. fold (raw w). rewrite I1, I2, I3. do 3 (split; [reflexivity |]). split; [exact I4 |]. constructor; [| exact I5]. cbn [fst snd flat_map]. split; [constructor | exact L].
      + destruct (told_written [(sizes, h, data)]) as (w1 & J1 & J2 & J3 & J4 & J5); [constructor; [split; [exact U | split; [exact W | exact L]] | constructor] |].
        exists (w1 ++ w). unfold raw in *. rewrite map_app, !flat_map_app, app_length, J1, J2, J3, I1, I2, I3. cbn [map heads_data flat_map snd length Nat.add app]. rewrite app_nil_r.
        do 3 (split; [reflexivity |]). split; [| apply Forall_app; split; assumption]. intros C handle i c. rewrite after_app, J4. apply I4. }
  destruct X as (w & I1 & I2 & I3 & I4 & I5). exists w. split; [exact I1 |]. split; [| split; [exact I2 | exact I4]].
  unfold PartWrite.tile_ok. rewrite I2. unfold len in *. rewrite I3. split; [intros ->; destruct ps; [contradiction | discriminate] |]. tauto.
Qed.

Lemma written_list : forall (f : Z -> list (list Z * list Z)) (l : list Z), (forall i, In i l -> parts_ok (f i)) -> exists ws : list written,
  map raw ws = map f l /\ Forall PartWrite.tile_ok ws /\ length ws = length l /\
  forall k w, nth_error ws k = Some w -> exists i, nth_error l k = Some i /\ flat_map snd w = flat_map snd (f i) /\
    forall C (handle : Z -> Z -> C -> list Z -> option C) j c, after (with_plt handle) j c (flat_map fst w) = Some c.
Proof.
  intros f. induction l as [| i l IH]; intros H.
  - exists []. split; [reflexivity |]. split; [constructor |]. split; [reflexivity |]. intros [| k] w E; discriminate E.
  - destruct IH as (ws & I1 & I2 & I3 & I4); [intros j J; apply H; right; exact J |]. destruct (parts_written (f i) (H i (or_introl eq_refl))) as (w & W1 & W2 & W3 & W4).
    exists (w :: ws). cbn [map length]. rewrite W1, I1, I3. split; [reflexivity |]. split; [constructor; assumption |]. split; [reflexivity |].
    intros [| k] v E; cbn [nth_error] in *; [| apply I4, E]. apply some_inj in E. subst v. exists i. split; [reflexivity |]. split; [exact W3 | exact W4].
Qed.

Lemma tiles_start : forall (f : Z -> list (list Z * list Z)) n, 1 <= n -> f 0 <> [] -> exists rest, write_tiles 0 (map f (tiles n)) = be 2 SOT ++ rest.
Proof.
  intros f n Hn H. unfold tiles. destruct (Z.to_nat n) as [| k] eqn:E; [lia |]. cbn [seq map Z.of_nat write_tiles]. unfold write_tile.
  destruct (f 0) as [| [h d] ps]; [contradiction |]. cbn [write_tile_from]. unfold write_part, write_sot. rewrite <- !app_assoc. eexists. reflexivity.
Qed.

Lemma common : forall (Q : Z -> nat -> Prop) n, (forall i, 0 <= i < n -> exists m, forall k, (m <= k)%nat -> Q i k) -> exists m, forall k, (m <= k)%nat -> forall i, 0 <= i < n -> Q i k.
Proof.
  intros Q n H. destruct (Z.leb_spec n 0); [exists 0%nat; intros; lia |]. rewrite <- (Z2Nat.id n) in * by lia. induction (Z.to_nat n) as [| m IH]; [exists 0%nat; intros; lia |].
  destruct m as [| m].
  - destruct (H 0 ltac:(lia)) as (a & A). exists a. intros k Hk i Hi. assert (i = 0) by lia. subst i. apply A, Hk.
  - destruct IH as (a & A); [intros i Hi; apply H; lia | lia |]. destruct (H (Z.of_nat (S m)) ltac:(lia)) as (b & B). exists (Nat.max a b). intros k Hk i Hi.
    destruct (Z.eq_dec i (Z.of_nat (S m))) as [-> | Hn]; [apply B; lia | apply A; lia].
Qed.

(** ** Theorems *)

(** Every tile having been coded with all its passes, the decoder gives back every
    sample of every component, whatever its buffers held. *)
Theorem c63_image : forall psize esize dsize big ihdr e old image o tw th (runs : Z -> run) (T : Z -> tile) (parts : Z -> list (list Z * list Z)),
  coding_ok ihdr e tw th o image ->
  (forall i, 0 <= i < tw * th -> tile_coded psize esize dsize big (e_siz e) (e_tcp e) tw (tw * th) image o (runs i) i (T i) /\
    encode_tile psize esize big (e_siz e) (e_tcp e) tw (tw * th) image (runs i) i = Some (map snd (parts i)) /\ parts_ok (parts i)) ->
  exists hd n0, write_header e old = Some hd /\
  forall fuel buf fresh junk other handle strict seekable fails, (n0 <= fuel)%nat -> exists outs,
    decode_image psize dsize fuel buf fresh junk other (with_plt handle) ihdr strict seekable fails (hd ++ write_tiles 0 (map parts (tiles (tw * th)))) = Some outs /\
    Z.of_nat (length outs) = numcomps (e_siz e) /\
    forall c, 0 <= c < numcomps (e_siz e) -> exists F out, frame (e_siz e) c = Some F /\ nth_error outs (Z.to_nat c) = Some out /\ shows image c F out.
Proof.
  intros psize esize dsize big ihdr e old image o tw th runs T parts K H. destruct (coding_framed _ _ _ _ _ _ K) as [HF L].
  destruct K as [KH KS KL KP KO K9 KF KZ KT KI KB]. pose proof (header_axes _ _ _ _ _ _ (proj1 HF)) as (W1 & W2 & W3 & _). assert (NB : 1 <= tw * th) by nia.
  assert (NE0 : parts 0 <> []) by (destruct (H 0 ltac:(lia)) as (_ & _ & A & _); exact A).
  destruct (tiles_start parts (tw * th) NB NE0) as (rest & ER).
  destruct (read_back ihdr e (fun _ h _ => Some h) old rest KH KS KL KP) as (hd & _ & EH & _).
  assert (HD : forall c, 0 <= c < numcomps (e_siz e) -> dcshift (at_ (t_comps (e_tcp e)) c) = shift_of (look comp0 (comps (e_siz e)) c)) by (intros c Hc; apply (KL c Hc)).
  assert (HN : 1 <= t_layers (e_tcp e) <= 999) by (destruct KH as (_ & _ & _ & _ & _ & A & _); lia).
  destruct (common (fun i k => forall t', read_as (e_siz e) (e_tcp e) t' ->
      forall buf fresh, exists d', decode_data psize dsize k (e_siz e) tw buf fresh i t' (flat_map snd (parts i)) = Some (T i, d') /\
      forall c, 0 <= c < numcomps (e_siz e) -> exists F comp, frame (e_siz e) c = Some F /\ tile_comp (T i) c = Some comp /\
      forall x y, inside comp x y -> inside F x y /\ d' c (place_in comp x y) = image c (place_in F x y)) (tw * th)) as (n0 & D).
  { intros i Hi. destruct (H i Hi) as (TC & EE & PK).
    destruct (tile_back psize esize dsize big (e_siz e) (e_tcp e) tw th image o (runs i) i (T i) (map snd (parts i)) HF L HD KO HN KF KI KB Hi TC EE) as (m & X). exists m.
    intros k Hk t' RA buf fresh. destruct (X t' RA buf fresh) as (d' & E & S). exists d'. split; [| exact S].
    rewrite flat_map_concat_map. apply E, Hk. }
  exists hd, n0. split; [exact EH |]. intros fuel buf fresh junk other handle strict seekable fails Hf.
  destruct (read_back ihdr e other old rest KH KS KL KP) as (hd' & t' & EH' & RH & RA). rewrite EH in EH'. apply some_inj in EH'. subst hd'.
  pose proof (fun i Hi => D fuel Hf i Hi t' RA buf fresh) as D'. clear D.
  set (res := fun i => match decode_data psize dsize fuel (e_siz e) tw buf fresh i t' (flat_map snd (parts i)) with Some r => r | None => (T i, fun _ _ => 0) end).
  unfold decode_image. rewrite ER, RH. cbv beta iota. rewrite KT. cbv beta iota.
  destruct (written_list parts (tiles (tw * th))) as (ws & V1 & V2 & V3 & V4); [intros i I; apply tiles_in in I; destruct (H i I) as (_ & _ & A); exact A |].
  assert (TL : length (tiles (tw * th)) = Z.to_nat (tw * th)) by (unfold tiles; rewrite map_length, seq_length; reflexivity).
  assert (WL : len ws = tw * th) by (unfold len; rewrite V3, TL; lia).
  assert (ES : rest = skipn 2 (write_tiles 0 (map raw ws))) by (rewrite V1, ER; reflexivity).
  pose proof (c60_written (with_plt handle) (decode_data psize dsize fuel (e_siz e) tw buf fresh) (fun _ => true) strict seekable fails (fun _ => t') ws res V2) as DT.
  rewrite <- ES, WL in DT. rewrite DT; cycle 1.
  { intros ->. unfold len in WL. cbn in WL. lia. }
  { lia. }
  { intros i w Hi EW _. destruct (V4 _ _ EW) as (j & EJ & VD & VA). assert (j = i).
    { unfold tiles in EJ. rewrite nth_error_map in EJ. destruct (nth_error (seq 0 (Z.to_nat (tw * th))) (Z.to_nat i)) as [m |] eqn:EM; [| discriminate EJ]. cbn [option_map] in EJ. apply some_inj in EJ.
      assert (B : (Z.to_nat i < Z.to_nat (tw * th))%nat) by (rewrite <- (seq_length (Z.to_nat (tw * th)) 0); apply nth_error_Some; congruence).
      rewrite (nth_error_nth' _ 0%nat) in EM by (rewrite seq_length; exact B). rewrite seq_nth in EM by exact B. apply some_inj in EM. lia. }
    subst j. assert (Bi : 0 <= i < tw * th) by (apply tiles_in; eapply nth_error_In; exact EJ).
    exists t'. split; [apply VA |]. rewrite VD. unfold res. destruct (D' i Bi) as (d' & E & _). rewrite E. reflexivity. }
  assert (FT : forall l : list Z, filter (fun _ => true) l = l) by (induction l as [| a l IH]; cbn [filter]; [reflexivity | rewrite IH; reflexivity]). rewrite FT.
  assert (G : forall c, 0 <= c < numcomps (e_siz e) -> exists F out, frame (e_siz e) c = Some F /\ gather (e_siz e) tw th junk (map (fun i => (i, res i)) (tiles (tw * th))) c = Some out /\ shows image c F out).
  { intros c Hc. apply (gathered (e_siz e) (e_tcp e) tw th junk res image c HF L Hc). intros i Hi. destruct (H i Hi) as (TC & _). destruct (D' i Hi) as (d' & E & S).
    assert (ERi : res i = (T i, d')) by (unfold res; rewrite E; reflexivity). rewrite ERi. cbn [fst snd]. split; [apply (tc_tile _ _ _ _ _ _ _ _ _ _ _ _ _ TC) |].
    destruct (S c Hc) as (F & comp & EF & EC & HS). split.
    - destruct (tc_wf _ _ _ _ _ _ _ _ _ _ _ _ _ TC) as (_ & _ & _ & _ & _ & _ & A & _). rewrite Forall_forall in A. apply A. unfold par. apply nth_In.
      destruct (tile_of_shape _ _ _ _ _ L (tc_tile _ _ _ _ _ _ _ _ _ _ _ _ _ TC)) as (_ & _ & N & _). unfold count in N. lia.
    - exists F, comp. split; [exact EF |]. split; [exact EC |]. destruct (tc_some _ _ _ _ _ _ _ _ _ _ _ _ _ TC c comp Hc EC) as [A B]. split; [exact A |]. split; [exact B | exact HS]. }
  destruct (all_some (map (gather (e_siz e) tw th junk (map (fun i => (i, res i)) (tiles (tw * th)))) (GeomModel.upto (numcomps (e_siz e))))) as [outs |] eqn:EO.
  2: { exfalso. revert EO. apply all_some_total. intros c I. assert (Hc : 0 <= c < numcomps (e_siz e)).
       { unfold GeomModel.upto in I. apply in_map_iff in I. destruct I as (k & <- & Hk). apply in_seq in Hk. lia. }
       destruct (G c Hc) as (F & out & _ & E & _). rewrite E. discriminate. }
  exists outs. split; [reflexivity |]. destruct (GeomCover.all_some_nth _ _ EO) as [LO NO]. rewrite map_length, GeomCover.upto_length in LO.
  split; [unfold numcomps in *; lia |]. intros c Hc. destruct (G c Hc) as (F & out & EF & EG & SH). exists F, out. split; [exact EF |]. split; [| exact SH].
  apply NO. rewrite nth_error_map, GeomCover.upto_nth by lia. cbn [option_map]. rewrite Z2Nat.id by lia. f_equal. exact EG.
Qed.

(** Coding a tile succeeds when its tile-parts have room. *)
Theorem c63_coded : forall psize esize dsize big ihdr e image o tw th r i T,
  coding_ok ihdr e tw th o image -> 0 <= i < tw * th -> tile_coded psize esize dsize big (e_siz e) (e_tcp e) tw (tw * th) image o r i T ->
  exists R, forall parts, concat (map snd parts) = concat (map snd (r_parts r)) -> Forall (fun p => R * Z.of_nat (length (snd p)) <= fst p < 2 ^ 32) parts ->
    exists datas, encode_tile psize esize big (e_siz e) (e_tcp e) tw (tw * th) image (mkRun (r_dest r) (r_tmp r) (r_bufs r) (r_cuts r) (r_packno r) parts) i = Some datas.
Proof.
  intros psize esize dsize big ihdr e image o tw th r i T K Hi H. destruct (coding_framed _ _ _ _ _ _ K) as [HF L]. destruct K as [KH KS KL KP KO K9 KF KZ KT KI KB].
  apply (tile_codes psize esize dsize big (e_siz e) (e_tcp e) tw th image o r i T HF L); try assumption.
  - intros c Hc. apply (KL c Hc).
  - destruct KH as (_ & _ & _ & _ & _ & A & _). lia.
Qed.

(** ** Two things that do not hold *)

(** With several tiles, the slice of the plane that [opj_j2k_get_tile_data] makes
    for a tile ends [tx0 - ox] samples after the row below the tile begins: for the
    tiles of the last row it is inside the plane in the first column only. *)
Theorem c63_slice : forall s t tw th i T c F comp, framed s tw th -> length (t_comps t) = length (comps s) -> 0 <= i < tw * th -> tile_of s t tw i = Some T -> through_bytes s ->
  0 <= c < numcomps s -> frame s c = Some F -> tile_comp T c = Some comp -> 1 <= width (fst comp) -> 1 <= width (snd comp) ->
  exists first n, plane_slice s T c = Some (first, n) /\ first = place_in F (fst (fst comp)) (fst (snd comp)) /\
    first + n = (snd (snd comp) - fst (snd F)) * width (fst F) + (fst (fst comp) - fst (fst F)) /\
    (snd (snd comp) = snd (snd F) -> (first + n <= width (fst F) * width (snd F) <-> fst (fst comp) = fst (fst F))).
Proof.
  intros s t tw th i T c F comp HF L Hi ET HB Hc EF EC Nw Nh.
  destruct (tile_in_frame s t tw th i T c HF L Hi ET Hc) as (F' & comp' & EF' & EC' & _ & X1 & X2 & X3 & Y1 & Y2 & Y3 & C1 & C2 & C3 & C4).
  rewrite EF in EF'. apply some_inj in EF'. subst F'. rewrite EC in EC'. apply some_inj in EC'. subst comp'.
  destruct (HB c F Hc EF) as (_ & RW & AR). pose proof HF as (Hh & B1 & B2 & HC & _). pose proof (comp_at s c HC Hc) as (_ & _ & Dx & Dy).
  destruct (header_axes _ _ _ _ _ _ (proj1 HF)) as (_ & _ & _ & Ax & Ay). destruct Hh as (V1 & V2 & V3 & V4 & V5 & V6 & V7 & V8 & _). cbn [fst snd] in *.
  apply siz_axis_spec in Ax; try assumption. apply siz_axis_spec in Ay; try assumption. destruct Ax as (_ & Ax & _), Ay as (_ & Ay & _). unfold is_u32 in *.
  set (q := look comp0 (comps s) c) in *. destruct F as [[fx0 fx1] [fy0 fy1]], comp as [[cx0 cx1] [cy0 cy1]]. unfold width, place_in in *. cbn [fst snd] in *.
  assert (P0 : (cy0 - fy0) * (fx1 - fx0) + (fx1 - fx0) <= (fx1 - fx0) * (fy1 - fy0)) by (clear - X1 X2 Y1 Y2 Nw Nh; nia).
  assert (P1 : 0 <= (cy0 - fy0) * (fx1 - fx0)) by (apply Z.mul_nonneg_nonneg; lia).
  assert (P2 : 0 <= (cy1 - cy0) * (fx1 - fx0) <= (fx1 - fx0) * (fy1 - fy0)) by (clear - X1 X2 Y1 Y2 Nw Nh; nia).
  assert (P3 : 0 <= (cy1 - cy0) * (cx1 - cx0) <= (cy1 - cy0) * (fx1 - fx0)) by (clear - X1 X2 Y1 Y2 Nw Nh; nia).
  unfold plane_slice, tile_dimensions. fold q. rewrite EC. cbn [fst snd]. rewrite (u32_id (x1 s - x0 s)) by lia.
  destruct (c29_uint_ceildiv (x0 s) (c_dx q)) as (p1 & -> & D1); [unfold is_u32; lia .. |]. destruct (c29_uint_ceildiv (y0 s) (c_dy q)) as (p2 & -> & D2); [unfold is_u32; lia .. |].
  destruct (c29_uint_ceildiv (x1 s - x0 s) (c_dx q)) as (p3 & -> & D3); [unfold is_u32; lia .. |].
  rewrite (ceil_unique (x0 s) (c_dx q) _ _ ltac:(lia) D1 C1), (ceil_unique (y0 s) (c_dy q) _ _ ltac:(lia) D2 C3), (ceil_unique (x1 s - x0 s) (c_dx q) _ _ ltac:(lia) D3 RW).
  cbv beta iota zeta. unfold width. cbn [fst snd]. rewrite (u32_id (cx1 - cx0)), (u32_id (cx0 - fx0)), (u32_id (cy0 - fy0)), (u32_id (cy1 - cy0)) by lia. rewrite (u32_id (fx1 - fx0 - (cx1 - cx0))) by lia.
  rewrite (u32_id ((cy0 - fy0) * (fx1 - fx0))) by lia. rewrite u32_id by lia.
  rewrite (u64_id ((cy1 - cy0) * (cx1 - cx0))) by lia. rewrite (u64_id ((cy1 - cy0) * (fx1 - fx0 - (cx1 - cx0)))) by lia. rewrite u64_id by lia.
  eexists. eexists. split; [reflexivity |]. split; [lia |]. split; [lia |]. intros E. subst cy1. split; intros; lia.
Qed.

(** In the image of two tiles below, the slice for the second tile ends four
    samples after the plane. *)
Definition two_siz : siz := mkSiz 0 6 3 0 0 4 3 0 0 [mkComp 8 0 1 1].
Definition two_tccp : tccp := mkT 0 2 6 6 0 1 (fun _ => 15) (fun _ => 15) 0 2 (fun b => nth (Z.to_nat b) [8; 9; 9; 10] 0) (fun _ => 0) 0 128.
Definition two : enc := mkEnc two_siz (mkTcp 0 0 1 0 [two_tccp] []) None None.
Theorem c63_slice_refuted : exists T F first n, tile_of two_siz (e_tcp two) 2 1 = Some T /\ frame two_siz 0 = Some F /\ plane_slice two_siz T 0 = Some (first, n) /\
  width (fst F) * width (snd F) = 18 /\ first + n = 22.
Proof. do 4 eexists. split; [vm_compute; reflexivity |]. split; [vm_compute; reflexivity |]. split; [vm_compute; reflexivity |]. split; vm_compute; reflexivity. Qed.

(** At a reduced resolution the component gets the width ceil((cx1 - cx0) / 2^f),
    which is not that of the reduced component, ceil(cx1 / 2^f) - ceil(cx0 / 2^f). *)
Theorem c63_reduced_width_refuted : exists s tw th F o, tiles_of s = Some (tw, th) /\ frame s 0 = Some F /\ header_update s tw th 1 (look comp0 (comps s) 0) = Some o /\
  width (res_axis (fst F) 1) = 1 /\ ow o = 2.
Proof.
  exists (mkSiz 0 4 4 1 1 4 4 0 0 [mkComp 8 0 1 1]). do 4 eexists. split; [vm_compute; reflexivity |]. split; [vm_compute; reflexivity |]. split; [vm_compute; reflexivity |]. split; vm_compute; reflexivity.
Qed.

(** ** Example *)

(** Six by three pixels in tiles of four by three: two tiles, one level, all
    passes in one layer. *)
Definition two_image (c k : Z) : Z := (k * k * 31 + 7 * k + 3) mod 256.
Definition two_tile (i : Z) : tile := match tile_of two_siz (e_tcp two) 2 i with Some T => T | None => PiSpec.mkTile 0 0 0 0 0 [] end.
Definition two_dest (i : Z) : list Z := repeat 0 (if i =? 0 then 12 else 6).
Definition two_coef (i : Z) : planes_t :=
  match tile_input false two_siz (two_tile i) 2 two_image (two_dest i) with
  | Some d => match analyse (two_tile i) (info_of two_siz (e_tcp two)) false (fun _ => zeroes) d with Some coef => coef | None => fun _ _ => 0 end
  | None => fun _ _ => 0
  end.
Definition two_run (i : Z) : run :=
  mkRun (two_dest i) (fun _ => zeroes) (fun _ => zeroes) (fun q => [demo_count (two_tile i) (style_of (e_tcp two)) (two_coef i) q]) 0 [(1000, [(0, 0, 0, 0); (0, 1, 0, 0)])].
Definition two_parts (i : Z) : list (list Z * list Z) :=
  match encode_tile 24 64 false two_siz (e_tcp two) 2 2 two_image (two_run i) i with Some l => map (fun d => ([], d)) l | None => [] end.
Definition two_stream : list Z := match write_header two (fun _ => []) with Some hd => hd ++ write_tiles 0 (map two_parts (tiles 2)) | None => [] end.

Example two_decoded :
  match decode_image 24 88 50 (fun _ _ => zeroes) (fun _ _ _ => 999) (fun _ _ => 888) (fun _ _ _ => None) (with_plt (fun _ _ _ _ => None)) (0, 0) true true false two_stream with
  | Some [o] => (ox0 o, oy0 o, ow o, oh o, option_map (fun m => map m (GeomModel.upto 18)) (odata o)) = (0, 0, 6, 3, Some (map (two_image 0) (GeomModel.upto 18)))
  | _ => False
  end.
Proof. vm_compute. reflexivity. Qed.

(** ... and it is an instance of [c63_image]. *)
Lemma one_layer : forall T S data, all_passes 24 64 T S data (fun _ => zeroes) (fun q => [demo_count T S data q]) 1.
Proof.
  intros T S data c r comp bs b k q j blk kd Hr Ec Eb Ib Hk Eq Ej Ek.
  assert (E : demo_count T S data (c, r, b_no b, k, j) = length (k_rates kd)).
  { unfold demo_count. rewrite Ec, Eb.
    assert (FB : List.find (fun x => b_no x =? b_no b) bs = Some b).
    { assert (ND : NoDup (map b_no bs)).
      { unfold res_bands in Eb. pose proof (all_some_map _ _ _ Eb) as F2.
        assert (EM : map b_no bs = filter (fun b => negb (is_band_empty (band_rect comp (nres (par T c)) r b))) (band_numbers r)).
        { clear - F2. induction F2 as [| x y l m H F2 IH]; [reflexivity |]. cbn [map]. rewrite IH. f_equal. destruct (band_precincts _ _ _ _ _ _ _); [| discriminate]. apply some_inj in H. subst y. reflexivity. }
        rewrite EM. apply NoDup_filter. unfold band_numbers. destruct (r =? 0); repeat constructor; cbn [In]; lia. }
      clear - ND Ib. induction bs as [| x bs IH]; [destruct Ib |]. cbn [List.find]. cbn [map] in ND. inversion ND as [| ? ? NI ND']; subst. destruct Ib as [-> | Ib]; [rewrite Z.eqb_refl; reflexivity |].
      destruct (Z.eqb_spec (b_no x) (b_no b)) as [Q |]; [| apply IH; assumption]. exfalso. apply NI. rewrite Q. apply in_map, Ib. }
    rewrite FB, Eq. rewrite (nth_error_nth _ _ _ Ej), Ek. reflexivity. }
  split; [reflexivity |]. rewrite E. cbn [ascending cut nth]. repeat split; lia.
Qed.

Lemma two_params : enc_ok (0, 0) 0 two.
Proof.
  unfold enc_ok. split.
  { unfold siz_ok, axis_ok, tiles_ok. cbn. repeat (split; [lia |]). split; [repeat constructor; cbn; lia |]. exists 2, 1. unfold ceil_of. lia. }
  split; [left; cbn; lia |]. split; [reflexivity |]. repeat (split; [cbn; lia |]). split.
  - intros c Hc. assert (c = 0) by (cbn in Hc; lia). subst c. unfold comp_params_ok. cbv zeta.
    change (at_ (t_comps (e_tcp two)) 0) with two_tccp. split; [| split; [| split; [| split; [cbn; lia |]; split; [cbn; lia |]; split; [reflexivity | intros _; reflexivity]]]].
    + unfold style_ok. cbn. repeat (split; [lia |]). intros. lia.
    + intros _ r Hr. split; reflexivity.
    + unfold quant_ok. split; [cbn; lia |]. split; [cbn; lia |]. intros b Hb. change (bands two_tccp) with 4 in Hb. cbn [two_tccp expn mant]. assert (b = 0 \/ b = 1 \/ b = 2 \/ b = 3) as [-> | [-> | [-> | ->]]] by lia; vm_compute; repeat split; discriminate || reflexivity.
  - split; [exact I |]. split; [exact I |]. intros A. discriminate.
Qed.

Lemma two_coding : coding_ok (0, 0) two 2 1 LRCP two_image.
Proof.
  assert (C0 : forall c, 0 <= c < numcomps (e_siz two) -> c = 0) by (intros c Hc; cbn in Hc; lia).
  constructor.
  - exact two_params.
  - intros c Hc. rewrite (C0 c Hc). repeat split.
  - intros c Hc. rewrite (C0 c Hc). repeat split.
  - reflexivity.
  - reflexivity.
  - cbn. lia.
  - intros c. unfold style_of, look. destruct (Z.to_nat c) as [| [| n]]; (split; [reflexivity |]; split; [cbn; lia | left; reflexivity]).
  - cbn. lia.
  - vm_compute. reflexivity.
  - intros c F x y Hc EF I. rewrite (C0 c Hc). unfold sample, two_image. cbn [two_siz e_siz two comps look Z.to_nat nth c_sgnd c_prec Z.eqb negb]. change (lowest false 8) with 0. change (highest false 8) with 255. lia.
  - intros _ c F Hc EF. rewrite (C0 c Hc) in *. vm_compute in EF. apply some_inj in EF. subst F. split; [left; reflexivity |]. split; [unfold ceil_of; cbn; lia | vm_compute; reflexivity].
Qed.

Lemma two_tiles : forall i, 0 <= i < 2 * 1 -> tile_coded 24 64 88 false (e_siz two) (e_tcp two) 2 (2 * 1) two_image LRCP (two_run i) i (two_tile i) /\
  encode_tile 24 64 false (e_siz two) (e_tcp two) 2 (2 * 1) two_image (two_run i) i = Some (map snd (two_parts i)) /\ parts_ok (two_parts i).
Proof.
  intros i Hi. assert (I2 : i = 0 \/ i = 1) by lia. clear Hi.
  assert (C0 : forall c, 0 <= c < 1 -> c = 0) by lia.
  assert (CT : count (two_tile i) = 1) by (destruct I2 as [-> | ->]; reflexivity).
  assert (NR : nres (par (two_tile i) 0) = 2) by (destruct I2 as [-> | ->]; reflexivity).
  assert (CE : tile_comp (two_tile i) 0 = Some (if i =? 0 then ((0, 4), (0, 3)) else ((4, 6), (0, 3)))) by (destruct I2 as [-> | ->]; vm_compute; reflexivity).
  assert (RS : forall c r, resolution (two_tile i) c r -> c = 0 /\ (r = 0 \/ r = 1)).
  { intros c r [Hc Hr]. fold (count (two_tile i)) in Hc. rewrite CT in Hc. rewrite (C0 c Hc) in *. split; [reflexivity |]. lia. }
  assert (WF : wf (two_tile i)).
  { unfold wf. fold (count (two_tile i)). rewrite CT. assert (B : 0 <= t_x0 (two_tile i) < t_x1 (two_tile i) /\ t_x1 (two_tile i) < 2 ^ 31 /\ 0 <= t_y0 (two_tile i) < t_y1 (two_tile i) /\ t_y1 (two_tile i) < 2 ^ 31 /\ PiSpec.t_layers (two_tile i) = 1) by (destruct I2 as [-> | ->]; vm_compute; repeat split; discriminate || reflexivity).
      do 4 (split; [tauto |]). split; [lia |]. split; [lia |]. split; [assert (TP : PiSpec.t_comps (two_tile i) = [mkParams 1 1 [(15, 15); (15, 15)]]) by (destruct I2 as [-> | ->]; vm_compute; reflexivity); rewrite TP; repeat constructor; cbn; lia |].
      exists 2, 1. split; [intros c Hc; rewrite (C0 c Hc); lia |]. split; [| destruct B as (_ & _ & _ & _ & ->); cbn; lia].
      intros c r Hr. destruct (RS c r Hr) as [-> [-> | ->]], I2 as [-> | ->]; vm_compute; discriminate. }
  split; [| split].
  - constructor.
    + destruct I2 as [-> | ->]; vm_compute; reflexivity.
    + exact WF.
    + exact I.
    + intros c Hc. fold (count (two_tile i)) in Hc. rewrite CT in Hc. rewrite (C0 c Hc). change (style_of (e_tcp two) 0) with (mkStyle 6 6 0 0 2 [8; 9; 9; 10]). cbn [s_cbw s_cbh s_roi].
      do 3 (split; [lia |]). rewrite NR. split; [| split].
      * intros r Hr. assert (r = 1) as -> by lia. destruct I2 as [-> | ->]; vm_compute; split; discriminate.
      * intros r b Hr Hb. assert (r = 0 \/ r = 1) as [-> | ->] by lia; cbn [band_numbers Z.eqb In] in Hb; [destruct Hb as [<- | []] | destruct Hb as [<- | [<- | [<- | []]]]]; vm_compute; repeat split; discriminate.
      * intros comp E. rewrite CE in E. apply some_inj in E. subst comp. destruct I2 as [-> | ->]; vm_compute; discriminate.
    + split; [lia |]. split; [lia |]. intros c r comp Hr E. destruct (RS c r Hr) as [-> HR]. rewrite CE in E. apply some_inj in E. subst comp. destruct HR as [-> | ->], I2 as [-> | ->]; vm_compute; discriminate.
    + split; [lia |]. split; [lia |]. intros c r comp Hr E. destruct (RS c r Hr) as [-> HR]. rewrite CE in E. apply some_inj in E. subst comp. destruct HR as [-> | ->], I2 as [-> | ->]; vm_compute; discriminate.
    + exists 8. split.
      * split; [lia |]. intros c comp Hc E. rewrite CT in Hc. rewrite (C0 c Hc) in *. rewrite CE in E. apply some_inj in E. subst comp. rewrite NR. split; [vm_compute; reflexivity |].
        intros l Hl. assert (l = 0) as -> by lia. right; right. destruct I2 as [-> | ->]; vm_compute; reflexivity.
      * intros c Hc. rewrite (C0 c Hc). cbn. lia.
    + intros A. discriminate A.
    + intros c r b Hr Hb. destruct (RS c r Hr) as [-> HR]. rewrite NR. destruct HR as [-> | ->]; cbn [band_numbers Z.eqb In] in Hb; [destruct Hb as [<- | []] | destruct Hb as [<- | [<- | [<- | []]]]]; vm_compute; reflexivity.
    + intros c comp Hc E. rewrite (C0 c Hc) in *. rewrite CE in E. apply some_inj in E. subst comp. destruct I2 as [-> | ->]; vm_compute; split; discriminate.
    + intros _ ps E. assert (EI : option_map (fun ps => Z.to_nat (input_size ps)) (all_some (map (plane_of (e_siz two) (two_tile i) two_image) (GeomModel.upto (numcomps (e_siz two))))) = Some (length (r_dest (two_run i)))) by (destruct I2 as [-> | ->]; vm_compute; reflexivity).
      rewrite E in EI. cbn [option_map] in EI. apply some_inj in EI. symmetry. exact EI.
    + intros q. split; [intros k; change (0 <= 0 <= 255); lia | change (0 <> 255); discriminate].
    + intros d coef ED EA. assert (EQ : two_coef i = coef).
      { unfold two_coef. change (tile_input false two_siz (two_tile i) 2 two_image (two_dest i) = Some d) in ED. rewrite ED.
        change (analyse (two_tile i) (info_of two_siz (e_tcp two)) false (fun _ => zeroes) d = Some coef) in EA. rewrite EA. reflexivity. }
      rewrite <- EQ. apply one_layer.
    + change (concat (map snd (r_parts (two_run i)))) with [(0, 0, 0, 0); (0, 1, 0, 0)].
      destruct (c27_encoder (two_tile i) LRCP WF I) as (out & EN & gs & EG & n & DN). destruct (c27_tile (two_tile i) LRCP WF I) as (out' & (gs' & EG' & n' & DN') & O & _ & V).
      assert (out' = out) by (rewrite EG in EG'; apply some_inj in EG'; subst gs'; specialize (DN (Nat.max n n') ltac:(lia)); specialize (DN' (Nat.max n n') ltac:(lia)); congruence). subst out'.
      replace [(0, 0, 0, 0); (0, 1, 0, 0)] with out; [exact EN |]. apply (PiDeliver.ordered_unique (two_tile i) LRCP); [exact O | |].
      * unfold ordered. constructor; [constructor; constructor |]. constructor; [| constructor]. cbn. lia.
      * intros q. rewrite V. destruct q as [[[l r] c] k]. cbn [valid]. assert (L1 : PiSpec.t_layers (two_tile i) = 1) by (destruct I2 as [-> | ->]; reflexivity).
        assert (WH : forall r, r = 0 \/ r = 1 -> wide (two_tile i) 0 r * high (two_tile i) 0 r = 1) by (intros r' [-> | ->]; destruct I2 as [-> | ->]; vm_compute; reflexivity).
        split.
        -- intros (Hl & Hc & Hr & Hk). destruct (RS c r (conj Hc Hr)) as [-> HR]. rewrite (WH r HR) in Hk. assert (l = 0) by lia. assert (k = 0) by lia. subst l k. destruct HR as [-> | ->]; cbn [In]; tauto.
        -- intros [A | [A | []]]; injection A as <- <- <- <-; rewrite NR, L1; first [rewrite (WH 0 (or_introl eq_refl)) | rewrite (WH 1 (or_intror eq_refl))]; fold (count (two_tile i)); rewrite CT; lia.
  - destruct I2 as [-> | ->]; vm_compute; reflexivity.
  - assert (PE : exists d, two_parts i = [([], d)] /\ 1 <= len d <= 1000).
    { assert (X : match two_parts i with [([], d)] => (1 <=? len d) && (len d <=? 1000) | _ => false end = true) by (destruct I2 as [-> | ->]; vm_compute; reflexivity).
      destruct (two_parts i) as [| [[| ? ?] d] [| ? ?]]; try discriminate X. exists d. split; [reflexivity |]. apply andb_true_iff in X. lia. }
    destruct PE as (d & -> & LD). unfold parts_ok. cbn [flat_map snd app map]. rewrite app_nil_r. split; [discriminate |]. split; [cbn; lia |]. split; [intros ->; cbn in LD; lia |]. split; [lia |].
    constructor; [| constructor]. cbn [fst snd]. split; [left; reflexivity |]. change (len (@nil Z)) with 0. lia.
Qed.

Example two_comes_back : exists hd n0, write_header two (fun _ => []) = Some hd /\
  forall fuel buf fresh junk other handle strict seekable fails, (n0 <= fuel)%nat -> exists outs,
    decode_image 24 88 fuel buf fresh junk other (with_plt handle) (0, 0) strict seekable fails (hd ++ write_tiles 0 (map two_parts (tiles 2))) = Some outs /\
    Z.of_nat (length outs) = 1 /\ forall c, 0 <= c < 1 -> exists F out, frame two_siz c = Some F /\ nth_error outs (Z.to_nat c) = Some out /\ shows two_image c F out.
Proof. exact (c63_image 24 64 88 false (0, 0) two (fun _ => []) two_image LRCP 2 1 two_run two_tile two_parts two_coding two_tiles). Qed.

Print Assumptions c63_image.
Print Assumptions c63_coded.
Print Assumptions c63_slice.
Print Assumptions c63_slice_refuted.
Print Assumptions c63_reduced_width_refuted.
