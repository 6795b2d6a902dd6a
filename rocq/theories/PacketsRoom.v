(** Packets in sequence: large enough buffers are enough. *)

From Coq Require Import ZArith List Bool Arith Lia ZifyNat.
From Verif Require Import I32 Ints BioSpec T2CodesModel T2PacketModel T2PacketSpec T2PacketBands T2PacketRoom T2PacketProps
  T1Model CblkModel CblkTrip CblkSound PiModel PacketsModel PacketsProofs.
Import ListNotations.
Local Open Scope Z_scope.

(** The precincts after some packets. *)
Definition after (st : place -> list eband) (q : packet) : place -> list eband :=
  store (place_of q) (next_state (Z.to_nat (layer_no q)) (st (place_of q))) st.
Definition after_all (st : place -> list eband) (ps : list packet) : place -> list eband := fold_left after ps st.

Section Room.
  Variables (sty : Z -> Z) (csty : Z) (nlay : nat) (es0 : place -> list eband).
  Hypothesis Hht : forall c, Z.land (sty c) 64 = 0.
  Hypothesis H9 : (nlay <= 999)%nat.

  Lemma packets_room : forall ps es ds cnt,
    (forall p, linked sty nlay es0 p (cnt p) (es p) (ds p)) -> (forall p, map layer_no (at_place p ps) = map Z.of_nat (seq (cnt p) (length (at_place p ps)))) ->
    Forall (fun q => 0 <= layer_no q < Z.of_nat nlay) ps ->
    exists R, 0 <= R /\ forall a q b, ps = a ++ q :: b -> forall packno room, R <= room ->
      exists bytes, encode_packet csty packno (Z.to_nat (layer_no q)) room (after_all es a (place_of q)) =
        Some (bytes, next_state (Z.to_nat (layer_no q)) (after_all es a (place_of q))) /\ Z.of_nat (length bytes) <= R.
  Proof.
    induction ps as [| q ps IH]; intros es ds cnt HL HO HV.
    - exists 0. split; [lia |]. intros a q b H. destruct a; discriminate.
    - inversion HV as [| ? ? V1 V2]; subst. set (p := place_of q) in *.
      assert (Eq : at_place p (q :: ps) = q :: at_place p ps).
      { rewrite at_cons. fold p. destruct (same_place_spec p p); [reflexivity | contradiction]. }
      pose proof (HO p) as Op. rewrite Eq in Op. cbn [map length seq] in Op.
      assert (El : layer_no q = Z.of_nat (cnt p)) by congruence. assert (Op' : map layer_no (at_place p ps) = map Z.of_nat (seq (S (cnt p)) (length (at_place p ps)))) by congruence.
      destruct (HL p) as (L1 & L2 & L3). cbv zeta in L1, L2, L3. assert (Hlt : (cnt p < nlay)%nat) by lia.
      destruct (packet_room (sty (comp_of p)) csty (cnt p) nlay (es p) _ Hlt L1) as (R1 & HR1).
      destruct (HR1 0 R1 ltac:(lia)) as (b1 & E1 & _). set (e1 := next_state (cnt p) (es p)) in *.
      destruct (packet_round (sty (comp_of p)) csty 0 (cnt p) nlay R1 (es p) (ds p) b1 e1 [] (Hht _) Hlt ltac:(lia) (Forall_nil _) L1 E1) as (d1 & D1 & D2 & mb & D3 & D4).
      assert (D5 := packet_sound _ _ _ _ _ _ _ L3 D1).
      set (cnt' := fun p' => if same_place p' p then S (cnt p) else cnt p').
      assert (EA : after es q = store p e1 es) by (unfold after; fold p; rewrite El, Nat2Z.id; reflexivity).
      assert (NX : forall p', linked sty nlay es0 p' (cnt' p') (after es q p') (store p d1 ds p')).
      { intros p'. rewrite EA. unfold store, cnt'. destruct (same_place_spec p' p) as [-> | Ne]; [| apply HL].
        split; [exact D2 |]. split; [| exact D5]. cbn [Nat.eqb]. eapply band_sb_trans; [exact L2 |]. exact (band_sb_trans _ _ _ D3 D4). }
      assert (HO' : forall p', map layer_no (at_place p' ps) = map Z.of_nat (seq (cnt' p') (length (at_place p' ps)))).
      { intros p'. unfold cnt'. destruct (same_place_spec p' p) as [-> | Ne]; [exact Op' |]. pose proof (HO p') as O'. rewrite at_cons in O'. fold p in O'.
        destruct (same_place_spec p p'); [congruence | exact O']. }
      destruct (IH (after es q) (store p d1 ds) cnt' NX HO' V2) as (R2 & HR2 & HR). exists (Z.max R1 R2). split; [lia |].
      intros a q' b H packno room Hroom. destruct a as [| q0 a].
      + cbn [app] in H. assert (q' = q) as -> by congruence. cbn [after_all fold_left]. fold p. rewrite El, Nat2Z.id.
        destruct (HR1 packno room ltac:(lia)) as (bytes & E & Hl). exists bytes. split; [exact E | lia].
      + cbn [app] in H. assert (q0 = q) as -> by congruence. assert (ps = a ++ q' :: b) as H' by congruence. unfold after_all. cbn [fold_left]. fold (after_all (after es q) a).
        destruct (HR a q' b H' packno room ltac:(lia)) as (bytes & E & Hl). exists bytes. split; [exact E | lia].
  Qed.

End Room.

Section Parts.
  Variables (csty : Z) (nlay : nat) (ps : list packet) (es : place -> list eband) (R : Z).
  Hypothesis HR0 : 0 <= R.
  Hypothesis HR : forall a q b, ps = a ++ q :: b -> forall packno room, R <= room ->
      exists bytes, encode_packet csty packno (Z.to_nat (layer_no q)) room (after_all es a (place_of q)) =
        Some (bytes, next_state (Z.to_nat (layer_no q)) (after_all es a (place_of q))) /\ Z.of_nat (length bytes) <= R.
  Hypothesis HV : Forall (fun q => 0 <= layer_no q < Z.of_nat nlay) ps.

  Lemma write_room : forall b a c packno room, ps = a ++ b ++ c -> R * Z.of_nat (length b) <= room < 2 ^ 32 ->
    exists bytes no, write_packets csty packno (Z.of_nat nlay) room (after_all es a) b = Some (bytes, no, after_all es (a ++ b)).
  Proof.
    induction b as [| q b IH]; intros a c packno room Hp Hroom; cbn [write_packets].
    - rewrite app_nil_r. eexists. eexists. reflexivity.
    - cbn [length] in Hroom. rewrite Nat2Z.inj_succ in Hroom.
      assert (Hq : 0 <= layer_no q < Z.of_nat nlay).
      { rewrite Forall_forall in HV. apply HV. rewrite Hp. apply in_or_app. right. left. reflexivity. }
      replace (layer_no q <? Z.of_nat nlay) with true by (symmetry; apply Z.ltb_lt; lia).
      assert (Hr : R <= room) by nia.
      destruct (HR a q (b ++ c) Hp packno room Hr) as (bytes & E & Hl).
      rewrite E. assert (EA : after_all es (a ++ [q]) = store (place_of q) (next_state (Z.to_nat (layer_no q)) (after_all es a (place_of q))) (after_all es a)).
      { unfold after_all. rewrite fold_left_app. reflexivity. }
      assert (Hu : u32 (room - Z.of_nat (length bytes)) = room - Z.of_nat (length bytes)) by (apply u32_id; lia).
      destruct (IH (a ++ [q]) c (u32 (packno + 1)) (u32 (room - Z.of_nat (length bytes)))) as (more & no & E2).
      { rewrite <- app_assoc. exact Hp. }
      { rewrite Hu. nia. }
      rewrite EA, <- app_assoc in E2. cbn [app] in E2. rewrite E2. eexists. eexists. reflexivity.
  Qed.

  Lemma parts_room : forall parts a packno, ps = a ++ concat (map snd parts) ->
    Forall (fun p => R * Z.of_nat (length (snd p)) <= fst p < 2 ^ 32) parts ->
    exists bufs es', write_parts csty packno (Z.of_nat nlay) (after_all es a) parts = Some (bufs, es').
  Proof.
    induction parts as [| [room b] parts IH]; intros a packno Hp Hroom; cbn [write_parts].
    - eexists. eexists. reflexivity.
    - pose proof (Forall_inv Hroom) as R1. pose proof (Forall_inv_tail Hroom) as R2. cbn [fst snd map concat] in *.
      destruct (write_room b a (concat (map snd parts)) packno room Hp R1) as (bytes & no & ->).
      destruct (IH (a ++ b) no) as (more & es' & ->); [rewrite <- app_assoc; exact Hp | exact R2 |]. eexists. eexists. reflexivity.
  Qed.
End Parts.
