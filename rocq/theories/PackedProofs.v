(** Proof part of C77: packets with packed headers. *)

From Coq Require Import ZArith List Lia Bool.
From Verif Require Import Ints BioSpec BioModel BioProofs BioStream TgtModel T2CodesModel T2CodesProofs T2PacketModel T2PacketSpec T2PacketProofs T2PacketBands T2PacketProps.
From Verif Require Import PiModel CblkModel CblkTrip CblkSound PacketsModel PacketsProofs PackedModel PackedSpec.
Import ListNotations.
Local Open Scope Z_scope.

(** ** The parts are those of the packets written *)

Lemma split_whole : forall csty packno lay room bs,
  encode_packet csty packno lay room bs = match split_packet csty packno lay room bs with Some (t, es) => Some (whole t, es) | None => None end.
Proof.
  intros csty packno lay room bs. unfold encode_packet, split_packet. destruct (put_sop csty packno room) as [[sop r] |]; [| reflexivity]. destruct (enc_bands lay _) as [fs b1]. destruct (write_fields _ _) as [w |]; [| reflexivity]. destruct (flush w) as [w' [|]]; [| reflexivity].
  destruct (put_eph csty _) as [[eph r2] |]; [| reflexivity]. destruct (enc_body lay r2 b1) as [[[body r3] b2] |]; [| reflexivity]. unfold whole. rewrite <- app_assoc. reflexivity.
Qed.
Lemma split_packets_whole : forall ps csty packno maxlay room st,
  write_packets csty packno maxlay room st ps = match split_packets csty packno maxlay room st ps with Some (l, no, es) => Some (concat (map whole l), no, es) | None => None end.
Proof.
  induction ps as [| q ps IH]; intros csty packno maxlay room st; cbn [write_packets split_packets]; [reflexivity |]. destruct (layer_no q <? maxlay); [| apply IH]. rewrite split_whole. destruct (split_packet _ _ _ _ _) as [[t es] |]; [| reflexivity].
  rewrite IH. destruct (split_packets _ _ _ _ _ ps) as [[[l no] es'] |]; reflexivity.
Qed.
Lemma split_parts_whole : forall parts csty packno maxlay st,
  write_parts csty packno maxlay st parts = match split_parts csty packno maxlay st parts with Some (ls, es) => Some (map (fun l => concat (map whole l)) ls, es) | None => None end.
Proof.
  induction parts as [| [room ps] parts IH]; intros csty packno maxlay st; cbn [write_parts split_parts]; [reflexivity |]. rewrite split_packets_whole. destruct (split_packets _ _ _ _ _ ps) as [[[l no] es] |]; [| reflexivity].
  rewrite IH. destruct (split_parts _ _ _ _ parts) as [[ls es'] |]; reflexivity.
Qed.

(** ** One packet *)

Lemma packed_round : forall sty csty packno lay nlay room es ds t es' hrest rest,
  Z.land sty 64 = 0 -> (lay < nlay)%nat -> Z.of_nat lay < 999 -> Forall byte_range hrest ->
  let es0 := if (lay =? 0)%nat then map enc_start es else es in
  let ds0 := if (lay =? 0)%nat then map dec_start ds else ds in
  Forall2 (band_rel sty lay nlay) es0 ds0 ->
  split_packet csty packno lay room es = Some (t, es') ->
  exists ds', packed_packet sty csty lay ds (header_of t ++ hrest) (data_of t ++ rest) = Some (ds', hrest, rest) /\
    Forall2 (band_rel sty (S lay) nlay) es' ds' /\ exists mb, Forall2 band_sb es0 mb /\ Forall2 band_sb mb es'.
Proof.
  intros sty csty packno lay nlay room es ds t es' hrest rest Hht Hlay Hlay9 Hrest es0 ds0 Hrel He.
  unfold split_packet in He. destruct (put_sop csty packno room) as [[sop room1] |] eqn:Esop; [| discriminate].
  fold es0 in He. destruct (enc_bands lay es0) as [fs es1] eqn:Eb.
  destruct (write_fields (init_enc (Z.to_nat room1)) ((1, 1) :: fs)) as [w |] eqn:Ew; [| discriminate].
  destruct (flush w) as [w' ok] eqn:Ef. destruct ok; [| discriminate].
  destruct (put_eph csty (room1 - w_numbytes w')) as [[eph room2] |] eqn:Eeph; [| discriminate].
  destruct (enc_body lay room2 es1) as [[[body room3] es2] |] eqn:Ebody; [| discriminate].
  assert (t = (sop, rev (w_out w') ++ eph, body)) as -> by congruence. assert (es' = es2) as -> by congruence. clear He. unfold header_of, data_of.
  apply write_fields_bits in Ew. rewrite field_bits_cons in Ew. subst w.
  change (bits_of (Z.to_nat 1) 1) with [true] in Ef. cbn [app] in Ef.
  destruct (skip_eph_put csty _ _ _ hrest Eeph) as [Heph Heb].
  assert (Hrest' : Forall byte_range (eph ++ hrest)) by (apply Forall_app; split; assumption).
  destruct (src_of_flush (Z.to_nat room1) (true :: field_bits fs) w' (eph ++ hrest) ltac:(discriminate) Hrest' Ef)
    as (tail & Hs & Hal). cbv zeta in Hs, Hal. cbn [app] in Hs.
  destruct (read1_src _ _ _ _ Hs) as (r1 & R1 & Hs1).
  destruct (bands_header _ _ _ _ _ _ _ _ _ _ Hht Hlay Hlay9 Hrel Eb Hs1) as (ds1 & r2 & D1 & D2 & D3 & D4).
  destruct (Hal _ D2) as (r3 & A1 & A2 & _).
  destruct (bands_body _ _ _ _ _ _ _ _ _ rest Hlay D3 Ebody) as (ds2 & B1 & B2 & B3 & _).
  exists ds2. split; [| split; [exact B2 | exists es1; auto]].
  unfold packed_packet, packed_header. fold ds0. rewrite <- !app_assoc.
  rewrite (skip_sop_put _ _ _ _ _ _ Esop). rewrite R1. cbn [negb]. rewrite D1, A1, A2, Heph, B1. reflexivity.
Qed.
Lemma packed_sound : forall sty csty lay bs hdrs data bs' hrest rest,
  Forall (fun b => Forall sound (db_blocks b)) (if (lay =? 0)%nat then map dec_start bs else bs) ->
  packed_packet sty csty lay bs hdrs data = Some (bs', hrest, rest) -> Forall (fun b => Forall sound (db_blocks b)) bs'.
Proof.
  intros sty csty lay bs hdrs data bs' hrest rest Hs H. unfold packed_packet, packed_header in H. set (bs0 := if (lay =? 0)%nat then map dec_start bs else bs) in *.
  destruct (read1 _) as [present r]. destruct (negb present).
  - assert (bs' = bs0) as -> by congruence. exact Hs.
  - destruct (dec_bands _ _ _ bs0 r) as [[bs1 r1] |] eqn:E; [| discriminate]. destruct (inalign r1) as [r2 ok]. destruct ok; [| discriminate].
    destruct (read_data _ _) as [[bs2 d2] |] eqn:E2; [| discriminate]. assert (bs' = bs2) as -> by congruence. exact (read_data_sound _ _ _ _ (dec_bands_half _ _ _ _ _ _ _ Hs E) E2).
Qed.
Lemma header_bytes : forall t, Forall byte_range (whole t) -> Forall byte_range (header_of t).
Proof. intros [[s h] b] H. unfold whole in H. rewrite !Forall_app in H. exact (proj1 (proj2 H)). Qed.
Lemma headers_bytes : forall l, Forall byte_range (concat (map whole l)) -> Forall byte_range (headers l).
Proof. induction l as [| t l IH]; intros H; [constructor |]. cbn [map concat] in H. rewrite Forall_app in H. unfold headers. cbn [map concat]. apply Forall_app. split; [apply header_bytes, H | apply IH, H]. Qed.

(** ** All packets *)

Section Run.
  Variables (sty : Z -> Z) (csty : Z) (nlay : nat) (es0 : place -> list eband).
  Hypothesis Hht : forall c, Z.land (sty c) 64 = 0.
  Hypothesis H9 : (nlay <= 999)%nat.
  Notation linked := (linked sty nlay es0).

  Lemma packed_all : forall ps packno room es ds cnt l no es',
    (forall p, linked p (cnt p) (es p) (ds p)) -> (forall p, map layer_no (at_place p ps) = map Z.of_nat (seq (cnt p) (length (at_place p ps)))) ->
    Forall (fun q => 0 <= layer_no q < Z.of_nat nlay) ps ->
    split_packets csty packno (Z.of_nat nlay) room es ps = Some (l, no, es') ->
    forall hrest rest, Forall byte_range hrest -> exists ds', packed_packets sty csty ds ps (headers l ++ hrest) (data l ++ rest) = Some (ds', hrest, rest) /\
      (forall p, linked p (cnt p + length (at_place p ps)) (es' p) (ds' p)) /\ (forall p, at_place p ps = [] -> ds' p = ds p).
  Proof.
    induction ps as [| q ps IH]; intros packno room es ds cnt l no es' HL HO HV H hrest rest Hh; pose proof H as HS; cbn [split_packets] in H.
    - assert (l = []) as -> by congruence. assert (es' = es) as -> by congruence. exists ds. cbn [packed_packets app headers data map concat]. split; [reflexivity |].
      split; [| reflexivity]. intros p. cbn [at_place filter length]. rewrite Nat.add_0_r. apply HL.
    - pose proof (split_packets_whole (q :: ps) csty packno (Z.of_nat nlay) room es) as W. rewrite HS in W. destruct (packets_bytes sty csty nlay es0 Hht H9 (q :: ps) packno room es ds cnt _ _ _ HL HO HV W) as [Wb _]. clear W HS.
      inversion HV as [| ? ? V1 V2]; subst. destruct (Z.ltb_spec (layer_no q) (Z.of_nat nlay)); [| lia].
      set (p := place_of q) in *.
      assert (Eq : at_place p (q :: ps) = q :: at_place p ps).
      { rewrite at_cons. fold p. destruct (same_place_spec p p); [reflexivity | contradiction]. }
      pose proof (HO p) as Op. rewrite Eq in Op. cbn [map length seq] in Op.
      assert (El : layer_no q = Z.of_nat (cnt p)) by congruence. assert (Op' : map layer_no (at_place p ps) = map Z.of_nat (seq (S (cnt p)) (length (at_place p ps)))) by congruence.
      rewrite El, Nat2Z.id in H.
      destruct (split_packet csty packno (cnt p) room (es p)) as [[t e1] |] eqn:E1; [| discriminate].
      destruct (split_packets _ _ _ _ _ ps) as [[[l2 no2] es2] |] eqn:E2; [| discriminate].
      assert (l = t :: l2) as -> by congruence. assert (es' = es2) as -> by congruence. clear H.
      cbn [map concat] in Wb. rewrite Forall_app in Wb. destruct Wb as [_ Wb]. apply headers_bytes in Wb.
      destruct (HL p) as (L1 & L2 & L3). cbv zeta in L1, L2, L3.
      assert (Hlt : (cnt p < nlay)%nat) by lia.
      set (cnt' := fun p' => if same_place p' p then S (cnt p) else cnt p').
      assert (HO' : forall p', map layer_no (at_place p' ps) = map Z.of_nat (seq (cnt' p') (length (at_place p' ps)))).
      { intros p'. unfold cnt'. destruct (same_place_spec p' p) as [-> | Ne]; [exact Op' |]. pose proof (HO p') as O'. rewrite at_cons in O'. fold p in O'.
        destruct (same_place_spec p p'); [congruence | exact O']. }
      destruct (packed_round (sty (comp_of p)) csty packno (cnt p) nlay room (es p) (ds p) t e1 (headers l2 ++ hrest) (data l2 ++ rest) (Hht _) Hlt ltac:(lia)) as (d1 & D1 & D2 & mb & D3 & D4);
        [apply Forall_app; split; assumption | exact L1 | exact E1 |].
      assert (D5 := packed_sound _ _ _ _ _ _ _ _ _ L3 D1).
      assert (NX : forall p', linked p' (cnt' p') (store p e1 es p') (store p d1 ds p')).
      { intros p'. unfold store, cnt'. destruct (same_place_spec p' p) as [-> | Ne]; [| apply HL].
        split; [exact D2 |]. split; [| exact D5]. cbn [Nat.eqb]. eapply band_sb_trans; [exact L2 | exact (band_sb_trans _ _ _ D3 D4)]. }
      destruct (IH _ _ _ _ cnt' _ _ _ NX HO' V2 E2 hrest rest Hh) as (ds' & F1 & F2 & F3).
      exists ds'. cbn [packed_packets]. fold p. unfold headers, data in *. cbn [map concat]. rewrite El, Nat2Z.id, <- !app_assoc, D1. split; [exact F1 |]. split.
      + intros p'. specialize (F2 p'). unfold cnt' in F2. destruct (same_place_spec p' p) as [Ep | Ne].
        * rewrite Ep in *. rewrite Eq. cbn [length]. replace (cnt p + S (length (at_place p ps)))%nat with (S (cnt p) + length (at_place p ps))%nat by lia. exact F2.
        * rewrite at_cons. fold p. destruct (same_place_spec p p'); [congruence | exact F2].
      + intros p' Hp'. rewrite at_cons in Hp'. fold p in Hp'. destruct (same_place_spec p p') as [E | Ne]; [discriminate |].
        rewrite (F3 p' Hp'). unfold store. destruct (same_place_spec p' p); [congruence | reflexivity].
  Qed.

  Lemma packed_app : forall a b ds h d, packed_packets sty csty ds (a ++ b) h d =
    match packed_packets sty csty ds a h d with Some (ds, h, d) => packed_packets sty csty ds b h d | None => None end.
  Proof. induction a as [| q a IH]; intros b ds h d; cbn [app packed_packets]; [reflexivity |]. destruct (packed_packet _ _ _ _ _ _) as [[[d1 h1] r1] |]; [apply IH | reflexivity]. Qed.

  Lemma packed_parts : forall parts packno es ds cnt ls es',
    (forall p, linked p (cnt p) (es p) (ds p)) ->
    (forall p, let qs := at_place p (concat (map snd parts)) in map layer_no qs = map Z.of_nat (seq (cnt p) (length qs))) ->
    Forall (fun q => 0 <= layer_no q < Z.of_nat nlay) (concat (map snd parts)) ->
    split_parts csty packno (Z.of_nat nlay) es parts = Some (ls, es') ->
    forall hrest rest, Forall byte_range hrest -> exists ds', packed_packets sty csty ds (concat (map snd parts)) (concat (map headers ls) ++ hrest) (concat (map data ls) ++ rest) = Some (ds', hrest, rest) /\
      (forall p, linked p (cnt p + length (at_place p (concat (map snd parts)))) (es' p) (ds' p)) /\ (forall p, at_place p (concat (map snd parts)) = [] -> ds' p = ds p).
  Proof.
    assert (FA : forall p a b, at_place p (a ++ b) = at_place p a ++ at_place p b) by (intros p a b; apply filter_app).
    induction parts as [| [room ps] parts IH]; intros packno es ds cnt ls es' HL HO HV H hrest rest Hh; pose proof H as HS; cbn [split_parts map concat snd] in *.
    - assert (ls = []) as -> by congruence. assert (es' = es) as -> by congruence. exists ds. cbn [packed_packets app concat map]. split; [reflexivity |].
      split; [| reflexivity]. intros p. cbn [at_place filter length]. rewrite Nat.add_0_r. apply HL.
    - clear HS. destruct (split_packets _ _ _ _ _ ps) as [[[l1 no1] es1] |] eqn:E1; [| discriminate]. destruct (split_parts _ _ _ _ parts) as [[l2 es2] |] eqn:E2; [| discriminate].
      assert (ls = l1 :: l2) as -> by congruence. assert (es' = es2) as -> by congruence. apply Forall_app in HV. destruct HV as [V1 V2].
      assert (HO1 : forall p, map layer_no (at_place p ps) = map Z.of_nat (seq (cnt p) (length (at_place p ps))) /\
        map layer_no (at_place p (concat (map snd parts))) = map Z.of_nat (seq (cnt p + length (at_place p ps)) (length (at_place p (concat (map snd parts)))))).
      { intros p. specialize (HO p). cbv zeta in HO. rewrite FA, map_app, app_length, seq_app, map_app in HO.
        apply app_same in HO; [exact HO | rewrite !map_length, seq_length; reflexivity]. }
      assert (HB : Forall byte_range (concat (map headers l2))).
      { destruct (packed_all ps packno room es ds cnt l1 no1 es1 HL (fun p => proj1 (HO1 p)) V1 E1 [] [] (Forall_nil _)) as (ds1 & _ & L1 & _).
        pose proof (split_parts_whole parts csty no1 (Z.of_nat nlay) es1) as W. rewrite E2 in W. destruct (parts_bytes sty csty nlay es0 Hht H9 parts no1 es1 ds1 (fun p => cnt p + length (at_place p ps))%nat _ _ L1 (fun p => proj2 (HO1 p)) V2 W) as [B _].
        clear - B. induction l2 as [| l l2 IH]; [constructor |]. cbn [map concat] in *. rewrite Forall_app in *. split; [apply headers_bytes, B | apply IH, B]. }
      destruct (packed_all ps packno room es ds cnt l1 no1 es1 HL (fun p => proj1 (HO1 p)) V1 E1 (concat (map headers l2) ++ hrest) (concat (map data l2) ++ rest)) as (ds1 & D1 & L1 & U1); [apply Forall_app; split; assumption |].
      destruct (IH no1 es1 ds1 (fun p => cnt p + length (at_place p ps))%nat l2 es2 L1 (fun p => proj2 (HO1 p)) V2 E2 hrest rest Hh) as (ds2 & D2 & L2 & U2).
      exists ds2. cbn [map concat]. rewrite <- !app_assoc, packed_app, D1. split; [exact D2 |]. split.
      + intros p. specialize (L2 p). rewrite FA, app_length, Nat.add_assoc. exact L2.
      + intros p Hp. rewrite FA in Hp. apply app_eq_nil in Hp. destruct Hp as [P1 P2]. rewrite (U2 p P2). apply U1, P1.
  Qed.
End Run.
