(** C77: packets with headers packed in PPM or PPT segments. *)

From Coq Require Import ZArith List Bool Arith Lia.
From Verif Require Import I32 MathModel ZBits Mem BioModel BioSpec BioProofs BioStream TgtModel TgtProofs TgtCoding TgtProps
  T2CodesModel T2CodesProofs Ints T2PacketModel T2PacketSpec T2PacketSegs T2PacketProofs T2PacketBands T2PacketRoom T2PacketProps
  T1Model T1Trip T1Props T1Length CblkModel CblkTrip CblkSound PiModel PiSpec PiDeliver PiProps PacketsModel PacketsProofs PacketsOrder PacketsRoom PacketsProps
  PpxModel PpxSpec PpxProps PackedModel PackedSpec PackedProofs.
Import ListNotations.
Local Open Scope Z_scope.

(** The three parts of the packets, joined, are the bytes the encoder writes. *)
Theorem c77_parts : forall csty packno maxlay st parts,
  write_parts csty packno maxlay st parts =
    match split_parts csty packno maxlay st parts with Some (ls, es) => Some (map (fun l => concat (map whole l)) ls, es) | None => None end.
Proof. intros. apply split_parts_whole. Qed.

(** Headers from one place and the rest from another give the coefficients as
    packets in one piece do (C57), and use up just these bytes of both. *)
Theorem c77_packets : forall sty roi csty nlay pcs es ds packno parts ls es' hrest rest,
  styles_ok sty roi -> (nlay <= 999)%nat -> tile_prepared sty roi nlay pcs es ds ->
  let out := concat (map snd parts) in
  in_turn out -> Forall (fun q => 0 <= layer_no q < Z.of_nat nlay) out ->
  split_parts csty packno (Z.of_nat nlay) es parts = Some (ls, es') -> Forall byte_range hrest ->
  exists ds', packed_packets sty csty ds out (concat (map headers ls) ++ hrest) (concat (map data ls) ++ rest) = Some (ds', hrest, rest) /\
    forall p, at_place p out <> [] -> all_shown (sty (comp_of p)) (roi (comp_of p)) (length (at_place p out)) (pcs p) (ds' p).
Proof.
  intros sty roi csty nlay pcs es ds packno parts ls es' hrest rest HS H9 HP out HT HV HW Hrest.
  assert (HL : forall p, linked sty nlay es p 0 (es p) (ds p)).
  { intros p. unfold linked. cbn [Nat.eqb]. split; [| split].
    - pose proof (prepared_paired _ _ _ _ _ _ (HP p)) as X. induction X; cbn [map]; constructor; [apply paired_start; assumption | assumption].
    - clear. induction (map enc_start (es p)) as [| b l IH]; constructor; [| exact IH]. split; [reflexivity |]. induction (eb_blocks b); constructor; [split; [reflexivity | split; reflexivity] | assumption].
    - exact (prepared_sound _ _ _ _ _ _ (HP p)). }
  destruct (packed_parts sty csty nlay es (fun c => proj1 (HS c)) H9 parts packno es ds (fun _ => 0%nat) ls es' HL HT HV HW hrest rest Hrest) as (ds' & D & L & _). exists ds'. split; [exact D |]. intros p Hp. specialize (L p). fold out in L. cbn [Nat.add] in L.
  destruct (HS (comp_of p)) as (S1 & S2 & S3). destruct L as (L1 & L2 & L3). cbv zeta in L1, L2, L3.
  destruct (Nat.eqb_spec (length (at_place p out)) 0) as [Z0 | NZ]; [destruct (at_place p out); [contradiction | discriminate] |].
  assert (Hle : (length (at_place p out) <= nlay)%nat).
  { pose proof (HT p) as T. destruct (Nat.le_gt_cases (length (at_place p out)) nlay) as [| G]; [assumption |]. exfalso.
    assert (I : In (Z.of_nat nlay) (map layer_no (at_place p out))) by (rewrite T; apply in_map, in_seq; lia).
    apply in_map_iff in I. destruct I as (q & Q1 & Q2). apply in_place in Q2. rewrite Forall_forall in HV. specialize (HV q (proj1 Q2)). lia. }
  apply (bands_shown _ _ nlay _ (pcs p) (es p) (ds p) (ds' p) S2 S3 Hle (HP p)); [| exact L3].
  apply (linked_known _ nlay _ (es p) (es' p)); [| exact L1]. eapply band_sb_trans; [apply start_sb | exact L2].
Qed.
Print Assumptions c77_packets.

(** ** Tiles *)

(** A tile as it was sent: layers, what is in its code-blocks, how it is read, its packets. *)
Record source := mkSource { s_nlay : nat; s_roi : Z -> Z; s_pcs : place -> list piece; s_job : tile_job; s_parts : list (list three) }.
Definition sent (s : source) : Prop := exists es packno parts es' rest,
  styles_ok (j_sty (s_job s)) (s_roi s) /\ (s_nlay s <= 999)%nat /\ tile_prepared (j_sty (s_job s)) (s_roi s) (s_nlay s) (s_pcs s) es (j_state (s_job s)) /\
  j_packets (s_job s) = concat (map snd parts) /\ in_turn (j_packets (s_job s)) /\ Forall (fun q => 0 <= layer_no q < Z.of_nat (s_nlay s)) (j_packets (s_job s)) /\
  split_parts (j_csty (s_job s)) packno (Z.of_nat (s_nlay s)) es parts = Some (s_parts s, es') /\ j_data (s_job s) = concat (map data (s_parts s)) ++ rest.
Definition received (s : source) (ds : place -> list dband) : Prop := forall p, at_place p (j_packets (s_job s)) <> [] ->
  all_shown (j_sty (s_job s) (comp_of p)) (s_roi s (comp_of p)) (length (at_place p (j_packets (s_job s)))) (s_pcs s p) (ds p).
Definition tile_headers (s : source) : list Z := concat (map headers (s_parts s)).

Lemma sent_bytes : forall s, sent s -> Forall byte_range (tile_headers s).
Proof.
  intros s (es & packno & parts & es' & rest & HS & H9 & HP & EP & HT & HV & HW & _). rewrite EP in HT, HV.
  pose proof (split_parts_whole parts (j_csty (s_job s)) packno (Z.of_nat (s_nlay s)) es) as W. rewrite HW in W.
  assert (HL : forall p, linked (j_sty (s_job s)) (s_nlay s) es p 0 (es p) (j_state (s_job s) p)).
  { intros p. unfold linked. cbn [Nat.eqb]. split; [| split].
    - pose proof (prepared_paired _ _ _ _ _ _ (HP p)) as X. induction X; cbn [map]; constructor; [apply paired_start; assumption | assumption].
    - clear. induction (map enc_start (es p)) as [| b l IH]; constructor; [| exact IH]. split; [reflexivity |]. induction (eb_blocks b); constructor; [split; [reflexivity | split; reflexivity] | assumption].
    - exact (prepared_sound _ _ _ _ _ _ (HP p)). }
  destruct (parts_bytes _ _ _ es (fun c => proj1 (HS c)) H9 parts packno es (j_state (s_job s)) (fun _ => 0%nat) _ _ HL HT HV W) as [B _].
  unfold tile_headers. clear - B. induction (s_parts s) as [| l l2 IH]; [constructor |]. cbn [map concat] in *. rewrite Forall_app in *. split; [apply headers_bytes, B | apply IH, B].
Qed.

(** With PPM: tiles that are all decoded, the headers of each in one piece and in
    the order in which the tiles are decoded. *)
Theorem c77_tiles : forall l hrest, Forall sent l -> Forall byte_range hrest ->
  exists dss, ppm_tiles (map (fun s => (true, s_job s)) l) (concat (map tile_headers l) ++ hrest) = Some dss /\ Forall2 received l dss.
Proof.
  induction l as [| s l IH]; intros hrest F Hh; [exists []; split; [reflexivity | constructor] |]. inversion F as [| ? ? F1 F2]; subst. cbn [map ppm_tiles concat].
  assert (B : Forall byte_range (concat (map tile_headers l))). { clear - F2. induction F2 as [| s l S _ IH]; [constructor |]. cbn [map concat]. apply Forall_app. split; [apply sent_bytes, S | exact IH]. }
  pose proof F1 as (es & packno & parts & es' & rest & HS & H9 & HP & EP & HT & HV & HW & HD). rewrite EP in HT, HV.
  destruct (c77_packets (j_sty (s_job s)) (s_roi s) (j_csty (s_job s)) (s_nlay s) (s_pcs s) es (j_state (s_job s)) packno parts (s_parts s) es' (concat (map tile_headers l) ++ hrest) rest HS H9 HP HT HV HW) as (ds' & R & S); [apply Forall_app; split; assumption |].
  rewrite HD, EP. unfold tile_headers at 1. rewrite <- app_assoc, R. destruct (IH hrest F2 Hh) as (dss & E & T). rewrite E. exists (ds' :: dss). split; [reflexivity |]. constructor; [| exact T]. unfold received. rewrite EP. exact S.
Qed.
Print Assumptions c77_tiles.

(** With PPT: the segments of a tile in any order. *)
Theorem c77_ppt : forall s segs, sent s -> segs <> [] -> (forall g b, In g segs -> In b g -> 0 <= b < 256) -> (forall g, In g segs -> (2 <= length g)%nat /\ Z.of_nat (length g) <= 65533) -> NoDup (map (hd 0) segs) ->
  concat (by_index segs) = tile_headers s ->
  exists l hdrs ds' rest, read_all [] segs = Some l /\ merge_ppt false true l = Some (Some hdrs) /\
    packed_packets (j_sty (s_job s)) (j_csty (s_job s)) (j_state (s_job s)) (j_packets (s_job s)) hdrs (j_data (s_job s)) = Some (ds', [], rest) /\ received s ds'.
Proof.
  intros s segs (es & packno & parts & es' & rest & HS & H9 & HP & EP & HT & HV & HW & HD) N O B D E. rewrite EP in HT, HV. destruct (c76_ppt segs N O B D) as (l & R & M & _). rewrite E in M.
  destruct (c77_packets (j_sty (s_job s)) (s_roi s) (j_csty (s_job s)) (s_nlay s) (s_pcs s) es (j_state (s_job s)) packno parts (s_parts s) es' [] rest HS H9 HP HT HV HW (Forall_nil _)) as (ds' & P & S). rewrite app_nil_r in P.
  exists l, (tile_headers s), ds', rest. split; [exact R |]. split; [exact M |]. unfold tile_headers, received. rewrite EP, HD. split; [exact P | exact S].
Qed.
Print Assumptions c77_ppt.

(** ** Where PPM headers go to the wrong packets *)

Definition leaf : tree := match tgt_create 1 1 as o return match o with Some _ => tree | None => unit end with Some t => t | None => tt end.
Definition blank : place -> list dband := fun _ => [mkDB 8 leaf leaf [mkD 0 0 [] 0 0 0 0 []]].
Definition found (ds : place -> list dband) : list (list Z) := flat_map (fun b => flat_map d_chunks (db_blocks b)) (ds (0, 0, 0)).
(** Two tiles of one block: an empty packet with header 0, and a packet with header
    225 and body 7. *)
Definition tile0 : tile_job := mkJob (fun _ => 0) 0 blank [(0, 0, 0, 0)] [].
Definition tile1 : tile_job := mkJob (fun _ => 0) 0 blank [(0, 0, 0, 0)] [7].
Definition outcome (o : option (list (place -> list dband))) : option (list (list (list Z))) := match o with Some l => Some (map found l) | None => None end.

Example c77_both : outcome (ppm_tiles [(true, tile0); (true, tile1)] [0; 225]) = Some [[]; [[7]]].
Proof. vm_compute. reflexivity. Qed.
(** If the first tile is not wanted, the second one is read with its headers. *)
Theorem c77_skipped_refuted : outcome (ppm_tiles [(true, tile1)] [225]) = Some [[[7]]] /\ outcome (ppm_tiles [(false, tile0); (true, tile1)] [0; 225]) = Some [[]].
Proof. split; vm_compute; reflexivity. Qed.
(** A tile of two tile-parts with an empty packet in each; the only tile-part of
    [tile1] comes between them, so PPM holds the headers 0, 225, 0. [tile1] is
    complete first (j2k.rs:3770-3783) and is decoded with the first header. *)
Definition tile2 : tile_job := mkJob (fun _ => 0) 0 blank [(0, 0, 0, 0); (1, 0, 0, 0)] [].
Theorem c77_interleaved_refuted : outcome (ppm_tiles [(true, tile1)] [225]) = Some [[[7]]] /\ outcome (ppm_tiles [(true, tile2)] [0; 0]) = Some [[]] /\ outcome (ppm_tiles [(true, tile1); (true, tile2)] [0; 225; 0]) <> Some [[[7]]; []].
Proof. split; [| split]; vm_compute; [reflexivity | reflexivity | discriminate]. Qed.
