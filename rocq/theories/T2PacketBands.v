(** Whole packets and sequences of packets. *)

From Coq Require Import ZArith List Bool Arith Lia ZifyNat.
From Verif Require Import I32 MathModel ZBits BioModel BioSpec BioProofs BioStream TgtModel TgtProofs TgtCoding
  T2CodesModel T2CodesProofs Ints T2PacketModel T2PacketSpec T2PacketSegs T2PacketProofs.
Import ListNotations.
Local Open Scope Z_scope.

Lemma blocks_header : forall l dl sty lay nlay nb incl imsb dincl dimsb i leaves fs incl' imsb' l' bytes r tail,
  Z.land sty 64 = 0 -> (lay < nlay)%nat -> Z.of_nat lay < 999 ->
  Forall (block_ok sty nlay nb) l -> Forall2 (brel sty lay nb) l dl -> (i + List.length l <= leaves)%nat ->
  follows leaves (Z.of_nat lay + 1) incl dincl -> follows leaves 999 imsb dimsb ->
  (forall j c, nth_error l j = Some c -> n_value (t_store imsb (i + j)%nat) = nb - e_numbps c /\
     (e_done c = 0%nat ->
      (n_value (t_store incl (i + j)%nat) <? Z.of_nat lay + 1) = negb (l_passes (layer_of lay c) =? 0)%nat)) ->
  enc_blocks lay incl imsb i l = (fs, incl', imsb', l') -> Src bytes r (field_bits fs ++ tail) ->
  exists dincl' dimsb' dl' r',
    dec_blocks (8 * List.length bytes + 1) sty lay nb dincl dimsb i dl r = Some (dincl', dimsb', dl', r') /\
    Src bytes r' tail /\
    follows leaves (Z.of_nat lay + 1) incl' dincl' /\ follows leaves 999 imsb' dimsb' /\
    (forall j, n_value (t_store incl' j) = n_value (t_store incl j)) /\
    (forall j, n_value (t_store imsb' j) = n_value (t_store imsb j)) /\
    Forall2 (mid sty lay nb) l' dl' /\ Forall2 sb l l'.
Proof.
  induction l as [| c l IH]; intros dl sty lay nlay nb incl imsb dincl dimsb i leaves fs incl' imsb' l' bytes r tail
    Hht Hlay Hlay9 Hok Hrel Hi Hfi Hfm Hv He Hs; inversion Hrel as [| ? d ? dl0 R1 R2]; subst.
  - cbn [enc_blocks] in He. injection He as <- <- <- <-. cbn [dec_blocks]. exists dincl, dimsb, [], r.
    split; [reflexivity |]. split; [exact Hs |]. split; [exact Hfi |]. split; [exact Hfm |]. split; [reflexivity |].
    split; [reflexivity |]. split; constructor.
  - inversion Hok as [| ? ? Hok1 Hok2]; subst. cbn [enc_blocks dec_blocks List.length] in *.
    destruct (enc_block lay incl imsb i c) as [[[f incl1] imsb1] c1] eqn:E1.
    destruct (enc_blocks lay incl1 imsb1 (S i) l) as [[[fs2 incl2] imsb2] l2] eqn:E2.
    injection He as <- <- <- <-. rewrite field_bits_app, <- app_assoc in Hs.
    destruct (Hv 0%nat c eq_refl) as [V1 V2]. rewrite Nat.add_0_r in V1, V2.
    assert (Hil : (i < leaves)%nat) by lia.
    destruct (block_header _ _ _ _ _ _ _ _ _ _ _ _ _ _ _ _ _ _ _ Hht Hok1 Hlay Hlay9 R1 Hil Hfi Hfm V1 V2 E1 Hs)
      as (di1 & dm1 & d1 & r1 & D1 & D2 & D3 & D4 & D5 & D6 & D7 & D8).
    rewrite D1.
    assert (Hi2 : (S i + List.length l <= leaves)%nat) by lia.
    assert (Hv2 : forall j c, nth_error l j = Some c -> n_value (t_store imsb1 (S i + j)%nat) = nb - e_numbps c /\
     (e_done c = 0%nat ->
      (n_value (t_store incl1 (S i + j)%nat) <? Z.of_nat lay + 1) = negb (l_passes (layer_of lay c) =? 0)%nat)).
    { intros j c0 Hj. rewrite D5, D6. replace (S i + j)%nat with (i + S j)%nat by lia. apply Hv. exact Hj. }
    destruct (IH _ _ _ _ _ _ _ _ _ _ _ _ _ _ _ _ _ _ Hht Hlay Hlay9 Hok2 R2 Hi2 D3 D4 Hv2 E2 D2)
      as (di2 & dm2 & dl2 & r2 & F1 & F2 & F3 & F4 & F5 & F6 & F7 & F8).
    rewrite F1. exists di2, dm2, (d1 :: dl2), r2. split; [reflexivity |]. split; [exact F2 |]. split; [exact F3 |]. split; [exact F4 |].
    split; [intros j; rewrite F5; apply D5 |]. split; [intros j; rewrite F6; apply D6 |].
    split; constructor; assumption.
Qed.

Lemma mark_spec : forall l lay t i leaves td, follows leaves (Z.of_nat lay) t td -> (i + List.length l <= leaves)%nat ->
  let t' := mark lay t i l in
  follows leaves (Z.of_nat lay) t' td /\
  (forall j c, nth_error l j = Some c -> n_value (t_store t' (i + j)%nat) =
     (if (e_done c =? 0)%nat && negb (l_passes (layer_of lay c) =? 0)%nat
      then Z.min (n_value (t_store t (i + j)%nat)) (Z.of_nat lay) else n_value (t_store t (i + j)%nat))) /\
  (forall j, (j < i)%nat -> n_value (t_store t' j) = n_value (t_store t j)).
Proof.
  induction l as [| c l IH]; intros lay t i leaves td Hf Hi t'; subst t'; cbn [mark List.length] in *.
  - split; [exact Hf |]. split; [intros j c Hj; destruct j; discriminate | reflexivity].
  - set (b := (e_done c =? 0)%nat && negb (l_passes (layer_of lay c) =? 0)%nat).
    assert (Hil : (i < leaves)%nat) by lia. assert (Hpos : 0 <= Z.of_nat lay) by lia.
    destruct (set_sync leaves (Z.of_nat lay) t td i (Z.of_nat lay) Hf Hil Hpos (Z.le_refl _)) as (S1 & S2 & S3).
    set (t1 := if b then tgt_setvalue t i (Z.of_nat lay) else t).
    assert (T1 : follows leaves (Z.of_nat lay) t1 td) by (unfold t1; destruct b; assumption).
    assert (T2 : n_value (t_store t1 i) = if b then Z.min (n_value (t_store t i)) (Z.of_nat lay) else n_value (t_store t i))
      by (unfold t1; destruct b; [exact S2 | reflexivity]).
    assert (T3 : forall j, (j < leaves)%nat -> j <> i -> n_value (t_store t1 j) = n_value (t_store t j))
      by (intros j Hj Hne; unfold t1; destruct b; [apply S3; assumption | reflexivity]).
    destruct (IH lay t1 (S i) leaves td T1 ltac:(lia)) as (I1 & I2 & I3).
    split; [exact I1 |]. split.
    + intros j c0 Hj. destruct j as [| j].
      * cbn in Hj. injection Hj as <-. fold b. rewrite Nat.add_0_r, I3 by lia. exact T2.
      * cbn [nth_error] in Hj. pose proof (I2 j c0 Hj) as X. replace (i + S j)%nat with (S i + j)%nat by lia.
        assert (j < List.length l)%nat by (apply nth_error_Some; congruence).
        rewrite X. rewrite T3 by lia. reflexivity.
    + intros j Hj. rewrite I3 by lia. apply T3; lia.
Qed.

(** Encoder and decoder state of one sub-band before layer [lay]. *)
Definition band_rel (sty : Z) (lay nlay : nat) (b : eband) (d : dband) : Prop :=
  eb_numbps b = db_numbps d /\ Forall (block_ok sty nlay (eb_numbps b)) (eb_blocks b) /\
  Forall2 (brel sty lay (eb_numbps b)) (eb_blocks b) (db_blocks d) /\
  (eb_blocks b = [] \/ exists leaves, (List.length (eb_blocks b) <= leaves)%nat /\
     follows leaves (Z.of_nat lay) (eb_incl b) (db_incl d) /\ follows leaves 999 (eb_imsb b) (db_imsb d) /\
     forall j c, nth_error (eb_blocks b) j = Some c ->
       n_value (t_store (eb_imsb b) j) = eb_numbps b - e_numbps c /\
       (e_done c = 0%nat -> n_value (t_store (eb_incl b) j) = 999)).

(** The same between header and body. *)
Definition band_mid (sty : Z) (lay nlay : nat) (b : eband) (d : dband) : Prop :=
  eb_numbps b = db_numbps d /\ Forall (block_ok sty nlay (eb_numbps b)) (eb_blocks b) /\
  Forall2 (mid sty lay (eb_numbps b)) (eb_blocks b) (db_blocks d) /\
  (eb_blocks b = [] \/ exists leaves, (List.length (eb_blocks b) <= leaves)%nat /\
     follows leaves (Z.of_nat lay + 1) (eb_incl b) (db_incl d) /\ follows leaves 999 (eb_imsb b) (db_imsb d) /\
     forall j c, nth_error (eb_blocks b) j = Some c ->
       n_value (t_store (eb_imsb b) j) = eb_numbps b - e_numbps c /\
       (e_done c = 0%nat -> l_passes (layer_of lay c) = 0%nat -> n_value (t_store (eb_incl b) j) = 999)).

Definition band_sb (b b' : eband) : Prop := eb_numbps b' = eb_numbps b /\ Forall2 sb (eb_blocks b) (eb_blocks b').

Lemma sb_blocks_ok : forall l l' sty n nb, Forall2 sb l l' -> Forall (block_ok sty n nb) l -> Forall (block_ok sty n nb) l'.
Proof.
  induction 1 as [| c c' l l' H _ IH]; intros Hok; [constructor |]. inversion Hok; subst. constructor; [| auto].
  eapply sb_ok; eassumption.
Qed.

Lemma Forall2_nth_l : forall {A B} (R : A -> B -> Prop) l l' j y, Forall2 R l l' -> nth_error l' j = Some y ->
  exists x, nth_error l j = Some x /\ R x y.
Proof.
  intros A B R l l' j y H. revert j. induction H as [| a b l l' Hab _ IH]; intros j Hj; [destruct j; discriminate |].
  destruct j as [| j]; [cbn in *; injection Hj as <-; eauto | apply IH; exact Hj].
Qed.

Lemma Forall2_len : forall {A B} (R : A -> B -> Prop) l l', Forall2 R l l' -> List.length l = List.length l'.
Proof. intros A B R l l' H. induction H; [reflexivity |]. cbn. congruence. Qed.

Lemma enc_blocks_done : forall l lay incl imsb i fs incl' imsb' l', enc_blocks lay incl imsb i l = (fs, incl', imsb', l') ->
  map e_done l' = map e_done l.
Proof.
  induction l as [| c l IH]; intros lay incl imsb i fs incl' imsb' l' H; cbn [enc_blocks] in H.
  - injection H as <- <- <- <-. reflexivity.
  - destruct (enc_block lay incl imsb i c) as [[[f i1] m1] c1] eqn:E.
    destruct (enc_blocks lay i1 m1 (S i) l) as [[[fs2 i2] m2] l2] eqn:E2.
    injection H as <- <- <- <-. cbn [map]. rewrite (IH _ _ _ _ _ _ _ _ E2). f_equal.
    unfold enc_block in E. cbv zeta in E. destruct (if (e_done c =? 0)%nat then _ else _) as [f0 ix].
    destruct (l_passes (layer_of lay c) =? 0)%nat; [injection E as <- <- <- <-; reflexivity |].
    destruct (if (e_done c =? 0)%nat then _ else _) as [[f1 mx] lb]. injection E as <- <- <- <-. reflexivity.
Qed.

Lemma band_header : forall b d sty lay nlay fs b' bytes r tail,
  Z.land sty 64 = 0 -> (lay < nlay)%nat -> Z.of_nat lay < 999 -> band_rel sty lay nlay b d ->
  enc_band lay b = (fs, b') -> Src bytes r (field_bits fs ++ tail) ->
  exists incl imsb dl r',
    dec_blocks (8 * List.length bytes + 1) sty lay (db_numbps d) (db_incl d) (db_imsb d) 0 (db_blocks d) r
      = Some (incl, imsb, dl, r') /\ Src bytes r' tail /\
    band_mid sty lay nlay b' (mkDB (db_numbps d) incl imsb dl) /\ band_sb b b'.
Proof.
  intros b d sty lay nlay fs b' bytes r tail Hht Hlay Hlay9 (Hnb & Hok & Hrel & Htree) He Hs.
  unfold enc_band in He.
  destruct (enc_blocks lay (mark lay (eb_incl b) 0 (eb_blocks b)) (eb_imsb b) 0 (eb_blocks b)) as [[[f incl1] imsb1] l1] eqn:E.
  injection He as <- <-. rewrite <- Hnb. destruct Htree as [Hnil | (leaves & Hlen & Hfi & Hfm & Hv)].
  - rewrite Hnil in *. cbn [mark enc_blocks] in E. injection E as <- <- <- <-.
    inversion Hrel as [Hx |]; subst. cbn [dec_blocks]. exists (db_incl d), (db_imsb d), [], r. split; [reflexivity |]. split; [exact Hs |].
    split.
    + split; [reflexivity |]. cbn [eb_blocks]. split; [constructor |]. split; [constructor |]. left. reflexivity.
    + split; [reflexivity |]. rewrite Hnil. constructor.
  - destruct (mark_spec (eb_blocks b) lay (eb_incl b) 0 leaves (db_incl d) Hfi ltac:(lia)) as (M1 & M2 & _).
    set (t1 := mark lay (eb_incl b) 0 (eb_blocks b)) in *.
    assert (M3 : follows leaves (Z.of_nat lay + 1) t1 (db_incl d)) by (eapply follows_mono; [| exact M1]; lia).
    assert (Hv2 : forall j c, nth_error (eb_blocks b) j = Some c ->
      n_value (t_store (eb_imsb b) (0 + j)%nat) = eb_numbps b - e_numbps c /\
      (e_done c = 0%nat ->
       (n_value (t_store t1 (0 + j)%nat) <? Z.of_nat lay + 1) = negb (l_passes (layer_of lay c) =? 0)%nat)).
    { intros j c Hj. destruct (Hv j c Hj) as [V1 V2]. split; [exact V1 |]. intros Hd. rewrite (M2 j c Hj). rewrite Hd.
      cbn [Nat.eqb andb Nat.add]. rewrite V2 by exact Hd. destruct (l_passes (layer_of lay c) =? 0)%nat; cbn [negb].
      - apply Z.ltb_ge. lia.
      - apply Z.ltb_lt. lia. }
    destruct (blocks_header _ (db_blocks d) sty lay nlay (eb_numbps b) _ _ (db_incl d) (db_imsb d) 0%nat leaves _ _ _ _ bytes r tail
      Hht Hlay Hlay9 Hok Hrel ltac:(lia) M3 Hfm Hv2 E Hs) as (di & dm & dl & r' & D1 & D2 & D3 & D4 & D5 & D6 & D7 & D8).
    exists di, dm, dl, r'. split; [exact D1 |]. split; [exact D2 |]. split.
    + split; [reflexivity |]. cbn [eb_blocks eb_numbps db_blocks db_incl db_imsb eb_incl eb_imsb].
      split; [eapply sb_blocks_ok; eassumption |]. split; [exact D7 |]. right. exists leaves.
      split; [rewrite <- (Forall2_len _ _ _ D8); exact Hlen |]. split; [exact D3 |]. split; [exact D4 |].
      intros j c' Hj. destruct (Forall2_nth_l _ _ _ _ _ D8 Hj) as (c & Hc & Hsb).
      destruct (Hv j c Hc) as [V1 V2]. rewrite D6. split; [destruct Hsb as (-> & _); exact V1 |].
      intros Hd Hp. rewrite D5. pose proof (M2 j c Hc) as X. cbn [Nat.add] in X. rewrite X.
      rewrite (sb_layer _ _ _ Hsb) in Hp. rewrite Hp. cbn [Nat.eqb negb]. rewrite andb_false_r. apply V2.
      apply enc_blocks_done in E. apply (f_equal (fun l => nth_error l j)) in E. rewrite !nth_error_map, Hj, Hc in E.
      cbn in E. injection E as E. lia.
    + split; [reflexivity | exact D8].
Qed.

Lemma bands_header : forall bs ds sty lay nlay fs bs' bytes r tail,
  Z.land sty 64 = 0 -> (lay < nlay)%nat -> Z.of_nat lay < 999 -> Forall2 (band_rel sty lay nlay) bs ds ->
  enc_bands lay bs = (fs, bs') -> Src bytes r (field_bits fs ++ tail) ->
  exists ds' r', dec_bands (8 * List.length bytes + 1) sty lay ds r = Some (ds', r') /\ Src bytes r' tail /\
    Forall2 (band_mid sty lay nlay) bs' ds' /\ Forall2 band_sb bs bs'.
Proof.
  induction bs as [| b bs IH]; intros ds sty lay nlay fs bs' bytes r tail Hht Hlay Hlay9 Hrel He Hs;
    inversion Hrel as [| ? d ? ds0 R1 R2]; subst; cbn [enc_bands dec_bands] in *.
  - injection He as <- <-. exists [], r. split; [reflexivity |]. split; [exact Hs |]. split; constructor.
  - destruct (enc_band lay b) as [f b1] eqn:E1. destruct (enc_bands lay bs) as [fs2 bs2] eqn:E2. injection He as <- <-.
    rewrite field_bits_app, <- app_assoc in Hs.
    destruct (band_header _ _ _ _ _ _ _ _ _ _ Hht Hlay Hlay9 R1 E1 Hs) as (di & dm & dl & r1 & D1 & D2 & D3 & D4).
    rewrite D1. destruct (IH _ _ _ _ _ _ _ _ _ Hht Hlay Hlay9 R2 E2 D2) as (ds2 & r2 & F1 & F2 & F3 & F4).
    rewrite F1. eexists. exists r2. split; [reflexivity |]. split; [exact F2 |]. split; constructor; assumption.
Qed.

(** ** Bodies *)

Lemma blocks_body : forall l dl sty lay nlay nb room body room' l' rest, (lay < nlay)%nat ->
  Forall (block_ok sty nlay nb) l -> Forall2 (mid sty lay nb) l dl ->
  enc_body_blocks lay room l = Some (body, room', l') ->
  exists dl', read_blocks dl (body ++ rest) = Some (dl', rest) /\ Forall2 (brel sty (S lay) nb) l' dl' /\ Forall2 sb l l' /\
    Forall byte_range body /\
    (forall j c', nth_error l' j = Some c' -> e_done c' = 0%nat ->
       exists c, nth_error l j = Some c /\ e_done c = 0%nat /\ l_passes (layer_of lay c) = 0%nat).
Proof.
  induction l as [| c l IH]; intros dl sty lay nlay nb room body room' l' rest Hlay Hok Hmid He;
    inversion Hmid as [| ? d ? dl0 M1 M2]; subst; cbn [enc_body_blocks read_blocks] in *.
  - injection He as <- <- <-. exists []. split; [reflexivity |]. repeat (split; [constructor |]). intros j c' Hj. destruct j; discriminate.
  - inversion Hok as [| ? ? Hok1 Hok2]; subst. pose proof (block_body sty lay nlay nb c d) as Hb. cbv zeta in Hb.
    destruct (l_passes (layer_of lay c) =? 0)%nat eqn:En.
    + destruct (enc_body_blocks lay room l) as [[[b2 room2] l2] |] eqn:E2; [| discriminate]. injection He as <- <- <-.
      destruct (Hb (b2 ++ rest) Hok1 Hlay M1) as (d' & B1 & B2). cbn [app] in B1. rewrite B1.
      destruct (IH _ _ _ _ _ _ _ _ _ rest Hlay Hok2 M2 E2) as (dl' & I1 & I2 & I3 & I4 & I5). rewrite I1.
      exists (d' :: dl'). split; [reflexivity |]. split; [constructor; assumption |].
      split; [constructor; [split; [reflexivity | split; reflexivity] | exact I3] |]. split; [exact I4 |].
      intros j c' Hj Hd. destruct j as [| j]; [cbn in Hj; injection Hj as <- | apply (I5 j c' Hj Hd)].
      exists c. split; [reflexivity |]. split; [exact Hd |]. apply Nat.eqb_eq. exact En.
    + destruct (room <? Z.of_nat (List.length (l_data (layer_of lay c)))); [discriminate |].
      destruct (enc_body_blocks lay (room - Z.of_nat (List.length (l_data (layer_of lay c)))) l) as [[[b2 room2] l2] |] eqn:E2; [| discriminate].
      injection He as <- <- <-. destruct (Hb (b2 ++ rest) Hok1 Hlay M1) as (d' & B1 & B2). rewrite <- app_assoc, B1.
      destruct (IH _ _ _ _ _ _ _ _ _ rest Hlay Hok2 M2 E2) as (dl' & I1 & I2 & I3 & I4 & I5). rewrite I1.
      exists (d' :: dl'). split; [reflexivity |]. split; [constructor; assumption |].
      split; [constructor; [split; [reflexivity | split; reflexivity] | exact I3] |]. split.
      * apply Forall_app. split; [| exact I4]. destruct Hok1 as (_ & _ & _ & _ & _ & _ & _ & _ & X). apply (X lay Hlay).
      * intros j c' Hj Hd. destruct j as [| j]; [cbn in Hj; injection Hj as <- | apply (I5 j c' Hj Hd)].
        cbn [e_done] in Hd. apply Nat.eqb_neq in En. lia.
Qed.

Lemma bands_body : forall bs ds sty lay nlay room body room' bs' rest, (lay < nlay)%nat ->
  Forall2 (band_mid sty lay nlay) bs ds -> enc_body lay room bs = Some (body, room', bs') ->
  exists ds', read_data ds (body ++ rest) = Some (ds', rest) /\ Forall2 (band_rel sty (S lay) nlay) bs' ds' /\
    Forall2 band_sb bs bs' /\ Forall byte_range body.
Proof.
  induction bs as [| b bs IH]; intros ds sty lay nlay room body room' bs' rest Hlay Hmid He;
    inversion Hmid as [| ? d ? ds0 M1 M2]; subst; cbn [enc_body read_data] in *.
  - injection He as <- <- <-. exists []. split; [reflexivity |]. repeat (split; [constructor |]). constructor.
  - destruct (enc_body_blocks lay room (eb_blocks b)) as [[[b1 room1] l1] |] eqn:E1; [| discriminate].
    destruct (enc_body lay room1 bs) as [[[b2 room2] bs2] |] eqn:E2; [| discriminate]. injection He as <- <- <-.
    destruct M1 as (Hnb & Hok & Hm & Htree).
    destruct (blocks_body _ _ _ _ _ _ _ _ _ _ (b2 ++ rest) Hlay Hok Hm E1) as (dl' & B1 & B2 & B3 & B4 & B5).
    rewrite <- app_assoc, B1. destruct (IH _ _ _ _ _ _ _ _ rest Hlay M2 E2) as (ds' & I1 & I2 & I3 & I4). rewrite I1.
    eexists. split; [reflexivity |]. split; [| split; [constructor; [split; [reflexivity | exact B3] | exact I3] | apply Forall_app; auto]].
    constructor; [| exact I2]. split; [exact Hnb |]. cbn [eb_blocks eb_numbps eb_incl eb_imsb db_blocks db_incl db_imsb].
    split; [eapply sb_blocks_ok; eassumption |]. split; [exact B2 |].
    destruct Htree as [Hnil | (leaves & Hlen & Hfi & Hfm & Hv)].
    + left. rewrite Hnil in B3. inversion B3. reflexivity.
    + right. exists leaves. split; [rewrite <- (Forall2_len _ _ _ B3); exact Hlen |].
      split; [replace (Z.of_nat (S lay)) with (Z.of_nat lay + 1) by lia; exact Hfi |]. split; [exact Hfm |].
      intros j c' Hj. destruct (Forall2_nth_l _ _ _ _ _ B3 Hj) as (c & Hc & Hsb). destruct (Hv j c Hc) as [V1 V2].
      split; [destruct Hsb as (-> & _); exact V1 |]. intros Hd. destruct (B5 j c' Hj Hd) as (c2 & X1 & X2 & X3).
      rewrite Hc in X1. injection X1 as <-. apply V2; assumption.
Qed.

(** ** Packets *)

Lemma skip_sop_put : forall csty packno room sop room' data, put_sop csty packno room = Some (sop, room') ->
  skip_sop csty (sop ++ data) = data.
Proof.
  intros csty packno room sop room' data H. unfold put_sop in H. unfold skip_sop.
  destruct (Z.land csty 2 =? 0); [injection H as <- <-; reflexivity |].
  destruct (room <? 6); [discriminate |]. injection H as <- <-. cbn [app List.length nth skipn Z.eqb negb orb].
  match goal with |- context [?a <? 6] => replace (a <? 6) with false by (symmetry; apply Z.ltb_ge; lia) end. reflexivity.
Qed.

Lemma skip_eph_put : forall csty room eph room' data, put_eph csty room = Some (eph, room') ->
  skip_eph csty (eph ++ data) = data /\ Forall byte_range eph.
Proof.
  intros csty room eph room' data H. unfold put_eph in H. unfold skip_eph.
  destruct (Z.land csty 4 =? 0); [injection H as <- <-; split; [reflexivity | constructor] |].
  destruct (room <? 2); [discriminate |]. injection H as <- <-. cbn [app List.length nth skipn Z.eqb negb orb].
  match goal with |- context [?a <? 2] => replace (a <? 2) with false by (symmetry; apply Z.ltb_ge; lia) end.
  split; [reflexivity |]. repeat constructor; unfold byte_range; lia.
Qed.

Lemma packet_round : forall sty csty packno lay nlay room es ds bytes es' rest,
  Z.land sty 64 = 0 -> (lay < nlay)%nat -> Z.of_nat lay < 999 -> Forall byte_range rest ->
  let es0 := if (lay =? 0)%nat then map enc_start es else es in
  let ds0 := if (lay =? 0)%nat then map dec_start ds else ds in
  Forall2 (band_rel sty lay nlay) es0 ds0 ->
  encode_packet csty packno lay room es = Some (bytes, es') ->
  exists ds', decode_packet sty csty lay ds (bytes ++ rest) = Some (ds', rest) /\
    Forall2 (band_rel sty (S lay) nlay) es' ds' /\ exists mb, Forall2 band_sb es0 mb /\ Forall2 band_sb mb es'.
Proof.
  intros sty csty packno lay nlay room es ds bytes es' rest Hht Hlay Hlay9 Hrest es0 ds0 Hrel He.
  unfold encode_packet in He. destruct (put_sop csty packno room) as [[sop room1] |] eqn:Esop; [| discriminate].
  fold es0 in He. destruct (enc_bands lay es0) as [fs es1] eqn:Eb.
  destruct (write_fields (init_enc (Z.to_nat room1)) ((1, 1) :: fs)) as [w |] eqn:Ew; [| discriminate].
  destruct (flush w) as [w' ok] eqn:Ef. destruct ok; [| discriminate].
  destruct (put_eph csty (room1 - w_numbytes w')) as [[eph room2] |] eqn:Eeph; [| discriminate].
  destruct (enc_body lay room2 es1) as [[[body room3] es2] |] eqn:Ebody; [| discriminate].
  injection He as <- <-.
  apply write_fields_bits in Ew. rewrite field_bits_cons in Ew. subst w.
  change (bits_of (Z.to_nat 1) 1) with [true] in Ef. cbn [app] in Ef.
  assert (Hbody : Forall byte_range body).
  { destruct (src_of_flush (Z.to_nat room1) (true :: field_bits fs) w' [] ltac:(discriminate) (Forall_nil _) Ef)
      as (tail & Hs & _). cbv zeta in Hs. cbn [app] in Hs.
    destruct (read1_src _ _ _ _ Hs) as (r1 & _ & Hs1).
    destruct (bands_header _ _ _ _ _ _ _ _ _ _ Hht Hlay Hlay9 Hrel Eb Hs1) as (ds1 & _ & _ & _ & X & _).
    destruct (bands_body _ _ _ _ _ _ _ _ _ [] Hlay X Ebody) as (_ & _ & _ & _ & Y). exact Y. }
  destruct (skip_eph_put csty _ _ _ (body ++ rest) Eeph) as [Heph Heb].
  assert (Hrest' : Forall byte_range (eph ++ body ++ rest)).
  { apply Forall_app. split; [exact Heb |]. apply Forall_app. auto. }
  destruct (src_of_flush (Z.to_nat room1) (true :: field_bits fs) w' (eph ++ body ++ rest) ltac:(discriminate) Hrest' Ef)
    as (tail & Hs & Hal). cbv zeta in Hs, Hal. cbn [app] in Hs.
  destruct (read1_src _ _ _ _ Hs) as (r1 & R1 & Hs1).
  destruct (bands_header _ _ _ _ _ _ _ _ _ _ Hht Hlay Hlay9 Hrel Eb Hs1) as (ds1 & r2 & D1 & D2 & D3 & D4).
  destruct (Hal _ D2) as (r3 & A1 & A2 & _).
  destruct (bands_body _ _ _ _ _ _ _ _ _ rest Hlay D3 Ebody) as (ds2 & B1 & B2 & B3 & _).
  exists ds2. split; [| split; [exact B2 | exists es1; auto]].
  unfold decode_packet, read_header. fold ds0. rewrite <- !app_assoc.
  rewrite (skip_sop_put _ _ _ _ _ _ Esop). rewrite R1. cbn [negb]. rewrite D1, A1, A2, Heph. exact B1.
Qed.

Lemma band_sb_trans : forall a b c, Forall2 band_sb a b -> Forall2 band_sb b c -> Forall2 band_sb a c.
Proof.
  intros a b c H. revert c. induction H as [| x y a b [H1 H2] _ IH]; intros c Hc; inversion Hc as [| ? z ? c0 [K1 K2] K3]; subst; [constructor |].
  constructor; [| apply IH; exact K3]. split; [congruence |].
  clear -H2 K2. revert K2. generalize (eb_blocks z). induction H2 as [| p q l l' (P1 & P2 & P3) _ IH]; intros m K; inversion K as [| ? r ? m0 (Q1 & Q2 & Q3) Q]; subst; constructor.
  - split; [congruence | split; congruence].
  - apply IH. exact Q.
Qed.
