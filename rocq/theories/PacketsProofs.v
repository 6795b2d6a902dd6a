(** The packets of a tile, one after the other. *)

From Coq Require Import ZArith List Lia Bool.
From Verif Require Import Ints BioSpec BioModel BioProofs BioStream TgtModel T2CodesModel T2CodesProofs T2PacketModel T2PacketSpec T2PacketProofs T2PacketBands T2PacketProps.
From Verif Require Import PiModel CblkModel CblkTrip CblkSound PacketsModel.
From Verif Require Import Ints.
Import ListNotations.
Local Open Scope Z_scope.

Lemma packet_bytes : forall sty csty packno lay nlay room es ds bytes es',
  Z.land sty 64 = 0 -> (lay < nlay)%nat -> Z.of_nat lay < 999 ->
  Forall2 (band_rel sty lay nlay) (if (lay =? 0)%nat then map enc_start es else es) (if (lay =? 0)%nat then map dec_start ds else ds) ->
  encode_packet csty packno lay room es = Some (bytes, es') -> Forall byte_range bytes.
Proof.
  intros sty csty packno lay nlay room es ds bytes es' Hht Hlay Hlay9 Hrel He.
  unfold encode_packet in He. destruct (put_sop csty packno room) as [[sop room1] |] eqn:Esop; [| discriminate].
  set (es0 := if (lay =? 0)%nat then map enc_start es else es) in *. destruct (enc_bands lay es0) as [fs es1] eqn:Eb.
  destruct (write_fields (init_enc (Z.to_nat room1)) ((1, 1) :: fs)) as [w |] eqn:Ew; [| discriminate].
  destruct (flush w) as [w' ok] eqn:Ef. destruct ok; [| discriminate].
  destruct (put_eph csty (room1 - w_numbytes w')) as [[eph room2] |] eqn:Eeph; [| discriminate].
  destruct (enc_body lay room2 es1) as [[[body room3] es2] |] eqn:Ebody; [| discriminate].
  assert (bytes = sop ++ rev (w_out w') ++ eph ++ body) as -> by congruence.
  apply write_fields_bits in Ew. rewrite field_bits_cons in Ew. subst w.
  change (bits_of (Z.to_nat 1) 1) with [true] in Ef. cbn [app] in Ef.
  destruct (src_of_flush (Z.to_nat room1) (true :: field_bits fs) w' [] ltac:(discriminate) (Forall_nil _) Ef) as (tail & Hs & _). cbv zeta in Hs. cbn [app] in Hs.
  pose proof Hs as [Hh _]. rewrite app_nil_r in Hh.
  destruct (read1_src _ _ _ _ Hs) as (r1 & _ & Hs1).
  destruct (bands_header _ _ _ _ _ _ _ _ _ _ Hht Hlay Hlay9 Hrel Eb Hs1) as (ds1 & _ & _ & _ & X & _).
  destruct (bands_body _ _ _ _ _ _ _ _ _ [] Hlay X Ebody) as (_ & _ & _ & _ & Y).
  destruct (skip_eph_put csty _ _ _ body Eeph) as [_ Heb].
  apply Forall_app. split; [| apply Forall_app; split; [exact Hh |]; apply Forall_app; split; assumption].
  unfold put_sop in Esop. destruct (Z.land csty 2 =? 0); [assert (sop = []) as -> by congruence; constructor |]. destruct (room <? 6); [discriminate |].
  assert (sop = [255; 145; 0; 4; Z.land (Z.shiftr packno 8) 255; Z.land packno 255]) as -> by congruence.
  assert (L : forall a, byte_range (Z.land a 255)) by (intros a; unfold byte_range; change 255 with (Z.ones 8); rewrite Z.land_ones by lia; apply Z.mod_pos_bound; lia).
  repeat (constructor; [first [apply L | unfold byte_range; lia] |]). constructor.
Qed.

(** ** Order *)

(** The packets of place [p]. *)
Definition here_at (p : place) (q : packet) : bool := same_place (place_of q) p.
Definition at_place (p : place) (ps : list packet) : list packet := filter (here_at p) ps.

Lemma same_place_spec : forall p q, reflect (p = q) (same_place p q).
Proof.
  intros [[a b] c] [[d e] f]. unfold same_place. cbn [fst snd]. destruct (Z.eqb_spec a d), (Z.eqb_spec b e), (Z.eqb_spec c f); cbn [andb]; constructor; congruence.
Qed.

Lemma at_cons : forall p q ps, at_place p (q :: ps) = if same_place (place_of q) p then q :: at_place p ps else at_place p ps.
Proof. reflexivity. Qed.

Lemma app_same : forall {A : Type} (a b c d : list A), length a = length c -> a ++ b = c ++ d -> a = c /\ b = d.
Proof.
  intros A. induction a as [| x a IH]; intros b [| y c] d L E; try discriminate; cbn [app] in E; [auto |].
  assert (a ++ b = c ++ d) as E' by congruence. destruct (IH b c d ltac:(cbn in L; lia) E'). split; congruence.
Qed.

Section Run.
  Variables (sty : Z -> Z) (csty : Z) (nlay : nat) (es0 : place -> list eband).
  Hypothesis Hht : forall c, Z.land (sty c) 64 = 0.
  Hypothesis H9 : (nlay <= 999)%nat.

  Definition linked (p : place) (n : nat) (es : list eband) (ds : list dband) : Prop :=
    let es := if (n =? 0)%nat then map enc_start es else es in let ds := if (n =? 0)%nat then map dec_start ds else ds in
    Forall2 (band_rel (sty (comp_of p)) n nlay) es ds /\ Forall2 band_sb (map enc_start (es0 p)) es /\ Forall (fun b => Forall sound (db_blocks b)) ds.

  Lemma packets_bytes : forall ps packno room es ds cnt bytes no es',
    (forall p, linked p (cnt p) (es p) (ds p)) -> (forall p, map layer_no (at_place p ps) = map Z.of_nat (seq (cnt p) (length (at_place p ps)))) ->
    Forall (fun q => 0 <= layer_no q < Z.of_nat nlay) ps ->
    write_packets csty packno (Z.of_nat nlay) room es ps = Some (bytes, no, es') ->
    Forall byte_range bytes /\
    forall rest, Forall byte_range rest -> exists ds', read_packets sty csty (fun _ => true) ds ps (bytes ++ rest) = Some (ds', rest) /\
      (forall p, linked p (cnt p + length (at_place p ps)) (es' p) (ds' p)) /\ (forall p, at_place p ps = [] -> ds' p = ds p).
  Proof.
    induction ps as [| q ps IH]; intros packno room es ds cnt bytes no es' HL HO HV H; cbn [write_packets] in H.
    - assert (bytes = []) as -> by congruence. assert (es' = es) as -> by congruence. split; [constructor |]. intros rest _. exists ds. cbn [read_packets app]. split; [reflexivity |].
      split; [| reflexivity]. intros p. cbn [at_place filter length]. rewrite Nat.add_0_r. apply HL.
    - inversion HV as [| ? ? V1 V2]; subst. destruct (Z.ltb_spec (layer_no q) (Z.of_nat nlay)); [| lia].
      set (p := place_of q) in *.
      assert (Eq : at_place p (q :: ps) = q :: at_place p ps).
      { rewrite at_cons. fold p. destruct (same_place_spec p p); [reflexivity | contradiction]. }
      pose proof (HO p) as Op. rewrite Eq in Op. cbn [map length seq] in Op.
      assert (El : layer_no q = Z.of_nat (cnt p)) by congruence. assert (Op' : map layer_no (at_place p ps) = map Z.of_nat (seq (S (cnt p)) (length (at_place p ps)))) by congruence.
      rewrite El, Nat2Z.id in H.
      destruct (encode_packet csty packno (cnt p) room (es p)) as [[b1 e1] |] eqn:E1; [| discriminate].
      destruct (write_packets _ _ _ _ _ ps) as [[[b2 no2] es2] |] eqn:E2; [| discriminate].
      assert (bytes = b1 ++ b2) as -> by congruence. assert (es' = es2) as -> by congruence.
      destruct (HL p) as (L1 & L2 & L3). cbv zeta in L1, L2, L3.
      assert (Hlt : (cnt p < nlay)%nat) by lia.
      assert (Hb1 : Forall byte_range b1) by (apply (packet_bytes (sty (comp_of p)) csty packno (cnt p) nlay room (es p) (ds p) b1 e1 (Hht _) Hlt ltac:(lia) L1 E1)).
      set (cnt' := fun p' => if same_place p' p then S (cnt p) else cnt p').
      assert (NX : forall d1, Forall2 (band_rel (sty (comp_of p)) (S (cnt p)) nlay) e1 d1 -> Forall2 band_sb (if (cnt p =? 0)%nat then map enc_start (es p) else es p) e1 ->
        Forall (fun b => Forall sound (db_blocks b)) d1 -> forall p', linked p' (cnt' p') (store p e1 es p') (store p d1 ds p')).
      { intros d1 R1 R2 R3 p'. unfold store, cnt'. destruct (same_place_spec p' p) as [-> | Ne]; [| apply HL].
        split; [exact R1 |]. split; [| exact R3]. cbn [Nat.eqb]. eapply band_sb_trans; [exact L2 | exact R2]. }
      assert (HO' : forall p', map layer_no (at_place p' ps) = map Z.of_nat (seq (cnt' p') (length (at_place p' ps)))).
      { intros p'. unfold cnt'. destruct (same_place_spec p' p) as [-> | Ne]; [exact Op' |]. pose proof (HO p') as O'. rewrite at_cons in O'. fold p in O'.
        destruct (same_place_spec p p'); [congruence | exact O']. }
      assert (Hb2 : Forall byte_range b2).
      { destruct (packet_round (sty (comp_of p)) csty packno (cnt p) nlay room (es p) (ds p) b1 e1 [] (Hht _) Hlt ltac:(lia) (Forall_nil _) L1 E1) as (d1 & D1 & D2 & mb & D3 & D4).
        assert (D5 := packet_sound _ _ _ _ _ _ _ L3 D1).
        exact (proj1 (IH _ _ _ _ cnt' _ _ _ (NX d1 D2 (band_sb_trans _ _ _ D3 D4) D5) HO' V2 E2)). }
      split; [apply Forall_app; split; assumption |]. intros rest Hrest.
      destruct (packet_round (sty (comp_of p)) csty packno (cnt p) nlay room (es p) (ds p) b1 e1 (b2 ++ rest) (Hht _) Hlt ltac:(lia)) as (d1 & D1 & D2 & mb & D3 & D4);
        [apply Forall_app; split; assumption | exact L1 | exact E1 |].
      assert (D5 := packet_sound _ _ _ _ _ _ _ L3 D1).
      destruct (IH _ _ _ _ cnt' _ _ _ (NX d1 D2 (band_sb_trans _ _ _ D3 D4) D5) HO' V2 E2) as [_ F]. destruct (F rest Hrest) as (ds' & F1 & F2 & F3).
      exists ds'. cbn [read_packets]. fold p. rewrite El, Nat2Z.id, <- app_assoc, D1. split; [exact F1 |]. split.
      + intros p'. specialize (F2 p'). unfold cnt' in F2. destruct (same_place_spec p' p) as [Ep | Ne].
        * rewrite Ep in *. rewrite Eq. cbn [length]. replace (cnt p + S (length (at_place p ps)))%nat with (S (cnt p) + length (at_place p ps))%nat by lia. exact F2.
        * rewrite at_cons. fold p. destruct (same_place_spec p p'); [congruence | exact F2].
      + intros p' Hp'. rewrite at_cons in Hp'. fold p in Hp'. destruct (same_place_spec p p') as [E | Ne]; [discriminate |].
        rewrite (F3 p' Hp'). unfold store. destruct (same_place_spec p' p); [congruence | reflexivity].
  Qed.

  Lemma parts_bytes : forall parts packno es ds cnt bufs es',
    (forall p, linked p (cnt p) (es p) (ds p)) ->
    (forall p, let qs := at_place p (concat (map snd parts)) in map layer_no qs = map Z.of_nat (seq (cnt p) (length qs))) ->
    Forall (fun q => 0 <= layer_no q < Z.of_nat nlay) (concat (map snd parts)) ->
    write_parts csty packno (Z.of_nat nlay) es parts = Some (bufs, es') ->
    Forall byte_range (concat bufs) /\
    forall rest, Forall byte_range rest -> exists ds', read_packets sty csty (fun _ => true) ds (concat (map snd parts)) (concat bufs ++ rest) = Some (ds', rest) /\
      (forall p, linked p (cnt p + length (at_place p (concat (map snd parts)))) (es' p) (ds' p)) /\ (forall p, at_place p (concat (map snd parts)) = [] -> ds' p = ds p).
  Proof.
    assert (RA : forall a b ds data, read_packets sty csty (fun _ => true) ds (a ++ b) data =
      match read_packets sty csty (fun _ => true) ds a data with Some (ds, data) => read_packets sty csty (fun _ => true) ds b data | None => None end).
    { induction a as [| q a IH]; intros b ds data; cbn [app read_packets]; [reflexivity |]. destruct (decode_packet _ _ _ _ _) as [[d1 data1] |]; [apply IH | reflexivity]. }
    assert (FA : forall p a b, at_place p (a ++ b) = at_place p a ++ at_place p b) by (intros p a b; apply filter_app).
    induction parts as [| [room ps] parts IH]; intros packno es ds cnt bufs es' HL HO HV H; cbn [write_parts map concat snd] in *.
    - assert (bufs = []) as -> by congruence. assert (es' = es) as -> by congruence. cbn [concat]. split; [constructor |]. intros rest _. exists ds. cbn [read_packets app]. split; [reflexivity |].
      split; [| reflexivity]. intros p. cbn [at_place filter length]. rewrite Nat.add_0_r. apply HL.
    - destruct (write_packets _ _ _ _ _ ps) as [[[b1 no1] es1] |] eqn:E1; [| discriminate]. destruct (write_parts _ _ _ _ parts) as [[b2 es2] |] eqn:E2; [| discriminate].
      assert (bufs = b1 :: b2) as -> by congruence. assert (es' = es2) as -> by congruence. apply Forall_app in HV. destruct HV as [V1 V2].
      assert (HO1 : forall p, map layer_no (at_place p ps) = map Z.of_nat (seq (cnt p) (length (at_place p ps))) /\
        map layer_no (at_place p (concat (map snd parts))) = map Z.of_nat (seq (cnt p + length (at_place p ps)) (length (at_place p (concat (map snd parts)))))).
      { intros p. specialize (HO p). cbv zeta in HO. rewrite FA, map_app, app_length, seq_app, map_app in HO.
        apply app_same in HO; [exact HO | rewrite !map_length, seq_length; reflexivity]. }
      destruct (packets_bytes ps packno room es ds cnt b1 no1 es1 HL (fun p => proj1 (HO1 p)) V1 E1) as [B1 R1].
      assert (HB : Forall byte_range (concat b2)).
      { destruct (R1 [] (Forall_nil _)) as (ds1 & _ & L1 & _). exact (proj1 (IH no1 es1 ds1 (fun p => cnt p + length (at_place p ps))%nat b2 es2 L1 (fun p => proj2 (HO1 p)) V2 E2)). }
      cbn [concat]. split; [apply Forall_app; split; assumption |]. intros rest Hrest.
      destruct (R1 (concat b2 ++ rest)) as (ds1 & D1 & L1 & U1); [apply Forall_app; split; assumption |].
      destruct (IH no1 es1 ds1 (fun p => cnt p + length (at_place p ps))%nat b2 es2 L1 (fun p => proj2 (HO1 p)) V2 E2) as [_ R2]. destruct (R2 rest Hrest) as (ds2 & D2 & L2 & U2).
      exists ds2. rewrite <- app_assoc, RA, D1. split; [exact D2 |]. split.
      + intros p. specialize (L2 p). rewrite FA, app_length, Nat.add_assoc. exact L2.
      + intros p Hp. rewrite FA in Hp. apply app_eq_nil in Hp. destruct Hp as [P1 P2]. rewrite (U2 p P2). apply U1, P1.
  Qed.
End Run.
