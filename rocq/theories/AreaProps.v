(** Property C65: an area of a tile is decoded to what the whole tile holds there. *)

From Coq Require Import ZArith List Bool Arith Lia ZifyNat.
From Verif Require Import I32 Ints Mem MathModel MathProps BioSpec GeomModel GeomProofs GeomCover GeomProps TgtModel T2PacketModel T1Model T1Props CblkModel
  PiModel PiSpec PiDeliver PiProps PacketsModel PacketsProps DwtModel DwtTile DwtProps MctModel MctProps ShiftModel ShiftProps TileModel TileGeom TileProofs TileProps
  SampleModel SampleDwt SampleProofs SampleProps SparseModel WindowModel AreaModel AreaProofs AreaComp AreaTile.
Import ListNotations.
Local Open Scope Z_scope.
Local Notation rect := GeomModel.rect.
Local Notation inside := GeomProps.inside.
Local Notation count := SampleModel.count.
Local Notation width := TileModel.width.

(** Where sample [(x, y)] is in a plane that holds the rectangle [r] row by row. *)
Definition at_ (r : rect) (x y : Z) : Z := (y - fst (snd r)) * (snd (fst r) - fst (fst r)) + (x - fst (fst r)).

(** What the decoder may be given: a tile it can set up, with an area that meets
    the tile, without high-throughput coding, of at most 2^30 rows. *)
Definition ready (psize size : Z) (T : tile) (S : Z -> style) (mct : bool) (win : rect) : Prop :=
  wf T /\ sizes_ok T S /\ sets_up psize size T S /\ grids_up T /\ not_lone T /\ 1 <= t_layers T /\ overlaps T win /\ mct_ok T mct /\
  (forall c comp, 0 <= c < count T -> tile_comp T c = Some comp -> width (snd comp) <= 2 ^ 30) /\
  (forall c, 0 <= c < count T -> Z.land (s_sty (S c)) 64 = 0).

(** For any bytes from which the whole tile can be decoded to [full]: decoding the
    area fails only for want of memory; otherwise the samples of the area are
    those of [full]. *)
Theorem c65_area : forall alloc psize size T S I mct csty win ps data rest ds buf d full,
  ready psize size T S mct win -> (forall q, In q ps <-> valid T q) -> Z.of_nat (length data) < 2 ^ 32 ->
  read_packets (fun c => s_sty (S c)) csty (fun _ => true) (or_none (dec_place psize size T S)) ps data = Some (ds, rest) ->
  synthesise psize size T S I mct buf ds d = Some full ->
  match decode_area alloc psize size T S I mct csty win ps data buf d with
  | None => ~ (forall c i, alloc c i = true)
  | Some (whole, planes) => forall c comp, 0 <= c < count T -> tile_comp T c = Some comp ->
      exists w, (forall x y, inside w x y <-> inside comp x y /\ inside win (x * sx (par T c)) (y * sy (par T c))) /\
        forall x y, inside w x y -> planes c (at_ (if whole : bool then comp else w) x y) = full c (at_ comp x y)
  end.
Proof.
  intros alloc psize size T S I mct csty win ps data rest ds buf d full (HW & HS & HU & HG & HN & HL & HO & HM & HT & HH) HP HD HR HY.
  pose proof (area_good psize size T S I mct csty win ps data rest ds HW HS HU HG HN HL HO HM HT HH HP HD HR alloc buf d full HY) as G.
  destruct (decode_area alloc psize size T S I mct csty win ps data buf d) as [[wh planes] |]; [| exact G].
  intros c comp Hc Ec. destruct (window_spec T win c comp HW HO Hc Ec) as (w & Ew & _ & _ & IW). exists w. split; [exact IW |]. exact (G c comp w Hc Ec Ew).
Qed.

(** With the encoder: the area shows the samples that were encoded. *)
Theorem c65_samples : forall T o S I P mct psize esize dsize csty nlay img tmp coef bufs cuts,
  wf T -> order_ok T o -> t_layers T = Z.of_nat nlay -> (1 <= nlay <= 999)%nat -> flags_ok S -> sizes_ok T S -> sets_up psize esize T S -> sets_up psize dsize T S ->
  samples_ok T I P img -> levels_ok T P -> mct_ok T mct -> analyse T I mct tmp img = Some coef -> fits_planes T S coef ->
  buffers_ok bufs -> all_passes psize esize T S coef bufs cuts nlay ->
  exists out, encodes T [all_of T o] out /\ decodes T [all_of T o] out /\
  forall packno parts bytes es' rest, concat (map snd parts) = out -> write_parts csty packno (t_layers T) (or_none (enc_place psize esize T S coef bufs cuts)) parts = Some (bytes, es') -> Forall byte_range rest ->
  Z.of_nat (length (concat bytes ++ rest)) < 2 ^ 32 ->
  forall alloc win buf d, ready psize dsize T S mct win ->
  match decode_area alloc psize dsize T S I mct csty win out (concat bytes ++ rest) buf d with
  | None => ~ (forall c i, alloc c i = true)
  | Some (whole, planes) => forall c comp, 0 <= c < count T -> tile_comp T c = Some comp ->
      exists w, (forall x y, inside w x y <-> inside comp x y /\ inside win (x * sx (par T c)) (y * sy (par T c))) /\
        forall x y, inside w x y -> planes c (at_ (if whole : bool then comp else w) x y) = img c (at_ comp x y)
  end.
Proof.
  intros T o S I P mct psize esize dsize csty nlay img tmp coef bufs cuts HW HOr HN H9 HF HZ HUe HUd HSm HLv HM EA HPl HB HC.
  destruct (c59_samples T o S I P mct psize esize dsize csty nlay img tmp coef bufs cuts HW HOr HN H9 HF HZ HUe HUd HSm HLv HM EA HPl HB HC) as (out & E & D & _ & TR).
  exists out. split; [exact E |]. split; [exact D |]. intros packno parts bytes es' rest EP EW Hrest HD alloc win buf d RD.
  destruct (TR packno parts bytes es' rest EP EW Hrest) as (ds & RP & SY). destruct (SY buf d) as (full & EF & IM).
  assert (V : forall q, In q out <-> valid T q).
  { destruct (c27_tile T o HW HOr) as (out' & (gs & Eg & n0 & D0) & _ & _ & V). destruct D as (gs' & Eg' & n1 & D1). assert (gs' = gs) as -> by congruence.
    pose proof (D0 (Nat.max n0 n1) ltac:(lia)) as A. pose proof (D1 (Nat.max n0 n1) ltac:(lia)) as B. assert (out' = out) as -> by congruence. exact V. }
  pose proof (c65_area alloc psize dsize T S I mct csty win out (concat bytes ++ rest) rest ds buf d full RD V HD RP EF) as G.
  destruct (decode_area alloc psize dsize T S I mct csty win out (concat bytes ++ rest) buf d) as [[wh planes] |]; [| exact G].
  intros c comp Hc Ec. destruct (G c comp Hc Ec) as (w & IW & H). exists w. split; [exact IW |]. intros x y Iw. rewrite (H x y Iw).
  apply (IM c comp _ Hc Ec). apply (pos_bound comp x y). apply (IW x y), Iw.
Qed.

(** High-throughput code-blocks come out as zeroes: their decoder writes into
    another buffer than the one that is read. Decoded whole, a block shows
    [output roi (v a)]. *)
Theorem c65_ht_refuted : (forall sty roi v a, Z.land sty 64 <> 0 -> block_data sty roi v a = 0) /\
  exists sty v a, Z.land sty 64 <> 0 /\ block_data sty 0 v a <> output 0 (v a).
Proof.
  assert (Z0 : forall sty roi v a, Z.land sty 64 <> 0 -> block_data sty roi v a = 0).
  { intros sty roi v a H. unfold block_data. destruct (Z.eqb_spec (Z.land sty 64) 0); [contradiction |]. unfold roi_unshift, halved. destruct (Z.eqb_spec roi 0); [reflexivity |]. destruct (31 <=? roi); [reflexivity |].
    cbv zeta. change (0 <? 0) with false. cbv iota. change (Z.abs 0) with 0. rewrite Z.shiftr_0_l. destruct (Z.shiftl 1 roi <=? 0); reflexivity. }
  split; [exact Z0 |]. exists 64, (fun _ => 10), 0. split; [vm_compute; discriminate |]. rewrite Z0 by (vm_compute; discriminate). vm_compute. discriminate.
Qed.

(** ** Example *)

(** The tile of [c59_example_levels], off the origin, with two components and
    precincts of 4 by 4 samples; an area of two by two pixels, for a single
    pixel two packets are skipped. *)
Definition demo_area (win : rect) : option (list (list Z)) :=
  match analyse odd_tile odd_info false (fun _ => zeroes) odd_img with
  | None => None
  | Some coef =>
      match demo_encode odd_tile odd_style odd_out coef with
      | None => None
      | Some bytes =>
          match decode_area (fun _ _ => true) 24 88 odd_tile odd_style odd_info false 0 win odd_out bytes (fun _ => zeroes) (fun _ _ => 999) with
          | Some (false, planes) => Some [map (planes 0) (upto 4); map (planes 1) (upto 2)]
          | _ => None
          end
      end
  end.
Definition cut (d : planes_t) (c : Z) (r w : rect) : list Z :=
  flat_map (fun y => map (fun x => d c (at_ r (fst (fst w) + x) (fst (snd w) + y))) (upto (snd (fst w) - fst (fst w)))) (upto (snd (snd w) - fst (snd w))).
Example c65_example :
  (comp_window odd_tile ((3, 5), (2, 4)) 0, comp_window odd_tile ((3, 5), (2, 4)) 1) = (Some ((3, 5), (2, 4)), Some ((2, 3), (2, 4))) /\
  demo_area ((3, 5), (2, 4)) = Some [cut odd_img 0 ((3, 9), (2, 7)) ((3, 5), (2, 4)); cut odd_img 1 ((2, 5), (2, 7)) ((2, 3), (2, 4))] /\
  (length odd_out, length (filter (area_want odd_tile ((3, 5), (2, 4))) odd_out), length (filter (area_want odd_tile ((3, 4), (2, 3))) odd_out)) = (11%nat, 11%nat, 9%nat).
Proof. split; [| split]; vm_compute; reflexivity. Qed.

Print Assumptions c65_area.
Print Assumptions c65_samples.
Print Assumptions c65_ht_refuted.
