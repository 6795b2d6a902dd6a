(** Property C20: packets.  Property C43: skipped packets. *)

From Coq Require Import ZArith List Bool Arith Lia ZifyNat.
From Verif Require Import I32 MathModel ZBits BioModel BioSpec BioProofs BioStream TgtModel TgtProofs TgtCoding TgtProps
  T2CodesModel T2CodesProofs Ints T2PacketModel T2PacketSpec T2PacketSegs T2PacketProofs T2PacketBands T2PacketRoom T2PacketSkip.
Import ListNotations.
Local Open Scope Z_scope.

Ltac Zify.zify_post_hook ::= Z.div_mod_to_equations.

(** ** C20: round trip *)

(** The packets of layers [lay], [lay + 1], ... of one precinct; each with its
    number and the room in the buffer. *)
Fixpoint encode_layers (csty : Z) (lay : nat) (jobs : list (Z * Z)) (es : list eband) : option (list (list Z) * list eband) :=
  match jobs with
  | [] => Some ([], es)
  | (packno, room) :: jobs =>
      match encode_packet csty packno lay room es with
      | None => None
      | Some (bytes, es) =>
          match encode_layers csty (S lay) jobs es with
          | None => None
          | Some (pkts, es) => Some (bytes :: pkts, es)
          end
      end
  end.

(** Decoding them from buffers that begin with the packets; the result has what
    is left in each. *)
Fixpoint decode_layers (sty csty : Z) (lay : nat) (ds : list dband) (bufs : list (list Z)) : option (list dband * list (list Z)) :=
  match bufs with
  | [] => Some (ds, [])
  | buf :: bufs =>
      match decode_packet sty csty lay ds buf with
      | None => None
      | Some (ds, rest) =>
          match decode_layers sty csty (S lay) ds bufs with
          | None => None
          | Some (ds, rests) => Some (ds, rest :: rests)
          end
      end
  end.

(** A sub-band of a precinct at the encoder, coded in [nlay] layers, and the same
    at the decoder, without data.  The trees have the size of the precinct;
    whatever they hold, the first packet resets them. *)
Definition paired (sty : Z) (nlay : nat) (b : eband) (d : dband) : Prop :=
  eb_numbps b = db_numbps d /\ List.length (eb_blocks b) = List.length (db_blocks d) /\
  Forall (block_ok sty nlay (eb_numbps b)) (eb_blocks b) /\ Forall (fun c => d_chunks c = []) (db_blocks d) /\
  (eb_blocks b = [] \/ exists w h t, tgt_create w h = Some t /\ (w * h)%nat = List.length (eb_blocks b) /\
     reached t (eb_incl b) /\ reached t (eb_imsb b) /\ reached t (db_incl d) /\ reached t (db_imsb d)).

Lemma set_imsb_spec : forall l t i nb leaves td, follows leaves 0 t td -> (i + List.length l <= leaves)%nat ->
  Forall (fun c => 0 <= nb - e_numbps c) l ->
  let t' := set_imsb t i nb l in
  follows leaves 0 t' td /\
  (forall j c, nth_error l j = Some c -> n_value (t_store t' (i + j)%nat) = Z.min (n_value (t_store t (i + j)%nat)) (nb - e_numbps c)) /\
  (forall j, (j < i)%nat -> n_value (t_store t' j) = n_value (t_store t j)).
Proof.
  induction l as [| c l IH]; intros t i nb leaves td Hf Hi Hc t'; subst t'; cbn [set_imsb List.length] in *.
  - split; [exact Hf |]. split; [intros j c Hj; destruct j; discriminate | reflexivity].
  - inversion Hc as [| ? ? Hc1 Hc2]; subst.
    destruct (set_sync leaves 0 t td i (nb - e_numbps c) Hf ltac:(lia) Hc1 Hc1) as (S1 & S2 & S3).
    destruct (IH (tgt_setvalue t i (nb - e_numbps c)) (S i) nb leaves td S1 ltac:(lia) Hc2) as (I1 & I2 & I3).
    split; [exact I1 |]. split.
    + intros j c0 Hj. destruct j as [| j].
      * cbn in Hj. injection Hj as <-. rewrite Nat.add_0_r, I3 by lia. exact S2.
      * cbn [nth_error] in Hj. assert (j < List.length l)%nat by (apply nth_error_Some; congruence).
        pose proof (I2 j c0 Hj) as X. replace (i + S j)%nat with (S i + j)%nat by lia. rewrite X, S3 by lia. reflexivity.
    + intros j Hj. rewrite I3 by lia. apply S3; lia.
Qed.

Lemma paired_start : forall sty nlay b d, paired sty nlay b d -> band_rel sty 0 nlay (enc_start b) (dec_start d).
Proof.
  intros sty nlay b d (Hnb & Hlen & Hok & Hch & Htree). unfold enc_start, dec_start, band_rel.
  cbn [eb_numbps eb_blocks eb_incl eb_imsb db_numbps db_blocks db_incl db_imsb]. split; [exact Hnb |]. split.
  { apply Forall_map. eapply Forall_impl; [| exact Hok]. intros c Hc. cbn beta.
    eapply sb_ok; [| exact Hc]. split; [reflexivity | split; reflexivity]. }
  split.
  { clear - Hlen Hch. revert Hlen Hch. generalize (db_blocks d). induction (eb_blocks b) as [| c l IH]; intros [| e m] Hlen Hch;
      try discriminate; cbn [map]; [constructor |]. inversion Hch as [| ? ? H1 H2]; subst.
    constructor; [| apply IH; [cbn in Hlen; lia | exact H2]].
    unfold brel. cbn [d_realsegs d_numsegs d_chunks clear_block e_done]. rewrite H1. split; [reflexivity |]. split; [reflexivity |].
    split; [reflexivity |]. left. split; reflexivity. }
  destruct Htree as [-> | (w & h & t & Ht & Hwh & R1 & R2 & R3 & R4)]; [left; reflexivity |]. right.
  rewrite (c18_reset _ _ _ _ Ht R1), (c18_reset _ _ _ _ Ht R2), (c18_reset _ _ _ _ Ht R3), (c18_reset _ _ _ _ Ht R4).
  exists (w * h)%nat. split; [rewrite map_length; lia |].
  pose proof (blank_follows w h t 0 Ht ltac:(lia)) as HF. split; [exact HF |].
  destruct (create_spec _ _ _ Ht) as (_ & _ & Hblank & _).
  destruct (set_imsb_spec (eb_blocks b) t 0 (eb_numbps b) (w * h) t HF ltac:(lia)) as (I1 & I2 & _).
  { eapply Forall_impl; [| exact Hok]. intros c (_ & _ & H & _). lia. }
  split; [eapply follows_mono; [| exact I1]; lia |].
  intros j c Hj. rewrite nth_error_map in Hj. destruct (nth_error (eb_blocks b) j) as [c0 |] eqn:E; [| discriminate].
  cbn in Hj. injection Hj as <-. pose proof (I2 j c0 E) as X. cbn [Nat.add] in X. rewrite X, Hblank.
  cbn [clear_block e_numbps blank n_value]. split; [| reflexivity].
  apply nth_error_In in E. pose proof (proj1 (Forall_forall _ _) Hok _ E) as (_ & _ & H & _). lia.
Qed.

Lemma brel_known : forall sty n nb c d, brel sty n nb c d -> known sty n nb c d.
Proof.
  intros sty n nb c d (Hdone & Hreal & Hch & Hcase). unfold known. destruct Hcase as [(H0 & H1) | (H0 & H1 & H2 & H3 & H4 & H5 & H6 & H7 & H8)].
  - rewrite H0, H1 in *. split; [intros j; lia |]. split; [exact Hreal |]. split; [intros X; contradiction |].
    split; [intros j Hj; lia | exact Hch].
  - split.
    { intros j. split; intros Hj.
      - destruct (Nat.lt_ge_cases j (d_numsegs d)) as [| Hge]; [assumption |].
        pose proof (start_mono sty (d_numsegs d) j Hge). lia.
      - pose proof (start_mono sty j (d_numsegs d - 1) ltac:(lia)). lia. }
    split; [exact Hreal |]. split; [intros _; auto |]. split; [| exact Hch].
    intros j Hj. destruct (H4 j Hj) as (S1 & S2 & S3 & S4). split; [congruence | exact S4].
Qed.

Lemma known_sb : forall sty n nb c c' d, sb c c' -> known sty n nb c' d -> known sty n nb c d.
Proof.
  intros sty n nb c c' d H K. pose proof H as (H1 & H2 & H3). unfold known in *. rewrite (sb_total _ _ n H) in K.
  rewrite (sb_content _ _ n H) in K. rewrite H1, H2 in K. exact K.
Qed.

Lemma layers_round : forall jobs sty csty lay nlay es ds pkts es' rests,
  Z.land sty 64 = 0 -> jobs <> [] -> (lay + List.length jobs = nlay)%nat -> Z.of_nat nlay <= 999 ->
  let es0 := if (lay =? 0)%nat then map enc_start es else es in
  let ds0 := if (lay =? 0)%nat then map dec_start ds else ds in
  Forall2 (band_rel sty lay nlay) es0 ds0 ->
  encode_layers csty lay jobs es = Some (pkts, es') ->
  List.length rests = List.length pkts -> Forall (Forall byte_range) rests ->
  exists ds', decode_layers sty csty lay ds (map (fun x => fst x ++ snd x) (combine pkts rests)) = Some (ds', rests) /\
    Forall2 (band_rel sty nlay nlay) es' ds' /\ Forall2 band_sb es0 es'.
Proof.
  induction jobs as [| [packno room] jobs IH]; intros sty csty lay nlay es ds pkts es' rests Hht Hne Hlay H9 es0 ds0 Hrel He Hlen Hr.
  { contradiction. }
  cbn [encode_layers List.length] in *.
  destruct (encode_packet csty packno lay room es) as [[bytes es1] |] eqn:E1; [| discriminate].
  destruct (encode_layers csty (S lay) jobs es1) as [[pkts2 es2] |] eqn:E2; [| discriminate].
  injection He as <- <-. destruct rests as [| rest rests]; [discriminate |]. inversion Hr as [| ? ? Hr1 Hr2]; subst.
  destruct (packet_round sty csty packno lay (lay + S (List.length jobs)) room es ds bytes es1 rest Hht ltac:(lia) ltac:(lia) Hr1 Hrel E1)
    as (ds1 & D1 & D2 & mb & D3 & D4).
  pose proof (band_sb_trans _ _ _ D3 D4) as D5. fold es0 in D5.
  cbn [combine map fst snd decode_layers]. rewrite D1.
  destruct jobs as [| j jobs].
  - cbn [encode_layers] in E2. injection E2 as <- <-. destruct rests; [| discriminate]. cbn [combine map decode_layers].
    exists ds1. split; [reflexivity |]. split; [| exact D5]. cbn [List.length] in *. rewrite Nat.add_1_r in *. exact D2.
  - destruct (IH sty csty (S lay) (lay + S (List.length (j :: jobs)))%nat es1 ds1 pkts2 es2 rests Hht ltac:(discriminate) ltac:(cbn; lia) H9
      D2 E2 ltac:(cbn in Hlen; lia) Hr2) as (ds2 & F1 & F2 & F3).
    rewrite F1. exists ds2. split; [reflexivity |]. split; [exact F2 |]. eapply band_sb_trans; [exact D5 | exact F3].
Qed.

(** For all sub-bands of a precinct, coding styles, layers and passes in them:
    if the encoder writes the packets of the layers, the decoder reads each of
    them exactly to its end, whatever follows it, and then knows of every
    code-block the zero bit-planes, the number of passes and bytes of every
    codeword segment, and has all bytes of all layers in order. *)
Theorem c20_round_trip : forall sty csty jobs es ds pkts es' rests,
  Z.land sty 64 = 0 -> jobs <> [] -> (List.length jobs <= 999)%nat ->
  Forall2 (paired sty (List.length jobs)) es ds ->
  encode_layers csty 0 jobs es = Some (pkts, es') ->
  List.length rests = List.length pkts -> Forall (Forall byte_range) rests ->
  exists ds', decode_layers sty csty 0 ds (map (fun x => fst x ++ snd x) (combine pkts rests)) = Some (ds', rests) /\
    Forall2 (fun b d => Forall2 (known sty (List.length jobs) (eb_numbps b)) (eb_blocks b) (db_blocks d)) es ds'.
Proof.
  intros sty csty jobs es ds pkts es' rests Hht Hne H9 Hp He Hlen Hr.
  assert (Hrel : Forall2 (band_rel sty 0 (List.length jobs)) (map enc_start es) (map dec_start ds)).
  { clear - Hp. induction Hp; cbn [map]; constructor; [apply paired_start; assumption | assumption]. }
  destruct (layers_round jobs sty csty 0 (List.length jobs) es ds pkts es' rests Hht Hne eq_refl ltac:(lia) Hrel He Hlen Hr)
    as (ds' & D1 & D2 & D3).
  exists ds'. split; [exact D1 |]. cbn [Nat.eqb] in D3. clear - D2 D3. revert ds' es' D2 D3.
  induction es as [| b es IH]; intros ds' es' D2 D3; cbn [map] in D3; inversion D3 as [| ? b' ? es1 [A1 A2] A3]; subst;
    inversion D2 as [| ? d ? ds1 B1 B2]; subst; constructor.
  - destruct B1 as (_ & _ & B1 & _). rewrite A1 in B1. cbn [enc_start eb_numbps eb_blocks] in *. clear - A2 B1.
    revert A2 B1. generalize (eb_blocks b') (db_blocks d). induction (eb_blocks b) as [| c l IH]; intros l' dl A B; cbn [map] in A;
      inversion A as [| ? c' ? l1 S1 S2]; subst; inversion B as [| ? e ? dl1 R1 R2]; subst; constructor.
    + apply brel_known in R1. eapply known_sb; [| exact R1]. exact S1.
    + eapply IH; eassumption.
  - eapply IH; eassumption.
Qed.

(** The encoder does write the packets, if the buffers have enough room. *)
Theorem c20_succeeds : forall sty csty nlay es ds, Z.land sty 64 = 0 -> (nlay <= 999)%nat -> Forall2 (paired sty nlay) es ds ->
  exists R, forall jobs, List.length jobs = nlay -> Forall (fun j => R <= snd j) jobs ->
    exists pkts es', encode_layers csty 0 jobs es = Some (pkts, es').
Proof.
  intros sty csty nlay es ds Hht H9 Hp.
  assert (Hrel : Forall2 (band_rel sty 0 nlay) (map enc_start es) (map dec_start ds)).
  { clear - Hp. induction Hp; cbn [map]; constructor; [apply paired_start; assumption | assumption]. }
  assert (G : forall n lay es ds, (lay + n = nlay)%nat ->
    Forall2 (band_rel sty lay nlay) (if (lay =? 0)%nat then map enc_start es else es) (if (lay =? 0)%nat then map dec_start ds else ds) ->
    exists R, forall jobs, List.length jobs = n -> Forall (fun j => R <= snd j) jobs ->
      exists pkts es', encode_layers csty lay jobs es = Some (pkts, es')).
  { clear - Hht H9. induction n as [| n IH]; intros lay es ds Hlay Hrel.
    - exists 0. intros jobs Hj _. destruct jobs; [| discriminate]. eexists. eexists. reflexivity.
    - destruct (packet_room sty csty lay nlay es _ ltac:(lia) Hrel) as (R1 & HR1).
      destruct (HR1 0 R1 ltac:(lia)) as (b0 & E0 & _).
      destruct (packet_round sty csty 0 lay nlay R1 es ds b0 _ [] Hht ltac:(lia) ltac:(lia) ltac:(constructor) Hrel E0)
        as (ds1 & _ & D2 & _).
      destruct (IH (S lay) (next_state lay es) ds1 ltac:(lia) D2) as (R2 & HR2).
      exists (Z.max R1 R2). intros jobs Hj Hroom. destruct jobs as [| [packno room] jobs]; [discriminate |].
      inversion Hroom as [| ? ? X1 X2]; subst. cbn [snd] in X1. cbn [encode_layers].
      destruct (HR1 packno room ltac:(lia)) as (bytes & -> & _).
      destruct (HR2 jobs ltac:(cbn in Hj; lia)) as (pkts & es' & ->).
      { eapply Forall_impl; [| exact X2]. cbn beta. intros [p r]. cbn. lia. }
      eexists. eexists. reflexivity. }
  destruct (G nlay 0%nat es ds eq_refl Hrel) as (R & HR). exists R. exact HR.
Qed.

(** ** C20: blocks as they are made *)

(** The passes after which block coding terminates the coder are the last ones
    of the decoder's segments. *)
Theorem c20_term_flags : forall sty numbps k, 0 < numbps -> (S k < Z.to_nat (3 * numbps - 2))%nat ->
  numbps <= 37 -> (is_term sty numbps k = true <-> ends sty k).
Proof.
  intros sty numbps k Hn Hk H37. unfold is_term, ends, seg_start. fold (termall sty) (lazy sty).
  assert (Hlast : (pass_type k =? 2)%nat && (pass_bpno numbps k =? 0) = false).
  { apply andb_false_iff. unfold pass_type, pass_bpno.
    destruct (Nat.eqb_spec ((k + 2) mod 3) 2) as [E |]; [right | left; reflexivity]. apply Z.eqb_neq. lia. }
  rewrite Hlast. destruct (termall sty); [split; [exists k; reflexivity | reflexivity] |].
  destruct (lazy sty).
  - unfold pass_type, pass_bpno. split.
    + intros H.
      assert (Hc : ((k + 2) mod 3 = 2 /\ (k + 2) / 3 = 3)%nat \/ (4 <= (k + 2) / 3 /\ (k + 2) mod 3 <> 0)%nat).
      { destruct (Z.eqb_spec (numbps - 1 - Z.of_nat ((k + 2) / 3)) (numbps - 4)) as [E | E].
        - destruct (Nat.eqb_spec ((k + 2) mod 3) 2) as [E2 | E2]; [left; lia |]. cbn [andb] in H.
          replace (_ <? numbps - 4) with false in H by (symmetry; apply Z.ltb_ge; lia). discriminate.
        - cbn [andb] in H. apply andb_prop in H. destruct H as [H1 H2]. apply Z.ltb_lt in H1. apply Nat.ltb_lt in H2. right. lia. }
      destruct Hc as [[A B] | [A B]].
      * exists 0%nat. lia.
      * destruct (Nat.eq_dec ((k + 2) mod 3) 1) as [C | C].
        { exists (1 + 2 * ((k + 2) / 3 - 4))%nat. cbn [Nat.add]. lia. }
        { exists (2 + 2 * ((k + 2) / 3 - 4))%nat. cbn [Nat.add]. lia. }
    + intros [j Hj].
      destruct (Nat.eq_dec j 0) as [-> | Hj0].
      * assert (k = 9)%nat as -> by (cbn in Hj; lia). cbn [Nat.add].
        replace (numbps - 1 - Z.of_nat (11 / 3) =? numbps - 4) with true by (symmetry; apply Z.eqb_eq; cbn; lia). reflexivity.
      * assert (Hm : (4 <= (k + 2) / 3)%nat /\ ((k + 2) mod 3 <> 0)%nat) by lia. destruct Hm as [M1 M2].
        replace (numbps - 1 - Z.of_nat ((k + 2) / 3) =? numbps - 4) with false by (symmetry; apply Z.eqb_neq; lia). cbn [andb].
        apply andb_true_intro. split; [apply Z.ltb_lt; lia | apply Nat.ltb_lt; lia].
  - split; [discriminate |]. intros [j Hj]. lia.
Qed.

Example c20_term_flags_example : map (is_term 1 7) (seq 0 19) =
  [false; false; false; false; false; false; false; false; false; true; false; true; true; false; true; true; false; true; true].
Proof. reflexivity. Qed.

(** Rates after block coding: none exceeds a later one or the bytes there are,
    and if the coder writes no two bytes 255 in a row, no pass ends in 255. *)
Theorem c20_rates : forall data rates numbytes l,
  0 <= numbytes <= Z.of_nat (List.length data) -> trim_rates data (fst (cap_rates rates numbytes)) = Some l ->
  List.length l = List.length rates /\
  (forall i j, (i <= j < List.length l)%nat -> 0 <= nth i l 0 <= nth j l 0 /\ nth j l 0 <= numbytes /\ nth j l 0 <= nth j rates 0) /\
  ((forall i, nth i data 0 <> 255 \/ nth (S i) data 0 <> 255) ->
   forall i, (i < List.length l)%nat -> nth i l 0 = 0 \/ nth (Z.to_nat (nth i l 0 - 1)) data 0 <> 255).
Proof.
  intros data rates numbytes l Hn.
  assert (C : forall rates, let '(c, last) := cap_rates rates numbytes in
    List.length c = List.length rates /\ last <= numbytes /\
    (forall i, (i < List.length c)%nat -> last <= nth i c 0) /\
    (forall i j, (i <= j < List.length c)%nat -> nth i c 0 <= nth j c 0 /\ nth j c 0 <= numbytes /\ nth j c 0 <= nth j rates 0)).
  { intros rs. induction rs as [| r rs IH]; cbn [cap_rates].
    - split; [reflexivity |]. split; [lia |]. split; intros; cbn in *; lia.
    - destruct (cap_rates rs numbytes) as [c last]. destruct IH as (I1 & I2 & I3 & I4).
      destruct (Z.ltb_spec last r) as [E | E]; cbn [List.length]; (split; [lia |]); (split; [lia |]); split.
      + intros [| i] Hi; cbn [nth]; [lia |]. apply I3. lia.
      + intros [| i] [| j] Hij; cbn [nth]; try lia.
        * pose proof (I3 j ltac:(lia)). pose proof (I4 j j ltac:(lia)). lia.
        * apply I4. lia.
      + intros [| i] Hi; cbn [nth]; [lia |]. pose proof (I3 i ltac:(lia)). lia.
      + intros [| i] [| j] Hij; cbn [nth]; try lia.
        * pose proof (I3 j ltac:(lia)). pose proof (I4 j j ltac:(lia)). lia.
        * apply I4. lia. }
  specialize (C rates). destruct (cap_rates rates numbytes) as [c last]. cbn [fst]. destruct C as (C1 & _ & _ & C4).
  intros H.
  assert (T : forall c l, trim_rates data c = Some l -> List.length l = List.length c /\
    forall i, (i < List.length c)%nat -> 0 < nth i c 0 /\
      nth i l 0 = if nth (Z.to_nat (nth i c 0 - 1)) data 0 =? 255 then nth i c 0 - 1 else nth i c 0).
  { clear. induction c as [| r c IH]; intros l H; cbn [trim_rates] in H.
    - injection H as <-. split; [reflexivity |]. intros i Hi. cbn in Hi. lia.
    - destruct (Z.leb_spec r 0) as [E | E]; [discriminate |]. destruct (trim_rates data c) as [l1 |]; [| discriminate].
      injection H as <-. destruct (IH l1 eq_refl) as [I1 I2]. split; [cbn; lia |].
      intros [| i] Hi; cbn [nth]; [split; [exact E | reflexivity] |]. apply I2. cbn in Hi. lia. }
  destruct (T c l H) as [T1 T2]. split; [lia |]. split.
  - intros i j Hij. destruct (T2 i ltac:(lia)) as [A1 A2]. destruct (T2 j ltac:(lia)) as [B1 B2].
    destruct (C4 i j ltac:(lia)) as (X1 & X2 & X3). rewrite A2, B2.
    destruct (Z.eq_dec (nth i c 0) (nth j c 0)) as [Eq | Ne].
    + rewrite Eq. destruct (nth (Z.to_nat (nth j c 0 - 1)) data 0 =? 255); lia.
    + destruct (nth (Z.to_nat (nth i c 0 - 1)) data 0 =? 255), (nth (Z.to_nat (nth j c 0 - 1)) data 0 =? 255); lia.
  - intros Hff i Hi. destruct (T2 i ltac:(lia)) as [A1 A2]. rewrite A2.
    destruct (Z.eqb_spec (nth (Z.to_nat (nth i c 0 - 1)) data 0) 255) as [E | E]; [| right; exact E].
    destruct (Z.eq_dec (nth i c 0) 1) as [E1 | E1]; [left; lia |]. right.
    destruct (Hff (Z.to_nat (nth i c 0 - 2))) as [G | G].
    + replace (nth i c 0 - 1 - 1) with (nth i c 0 - 2) by lia. exact G.
    + exfalso. apply G. replace (S (Z.to_nat (nth i c 0 - 2))) with (Z.to_nat (nth i c 0 - 1)) by lia. exact E.
Qed.

Example c20_rates_example : trim_rates [1; 255; 3; 4; 5] (fst (cap_rates [2; 9; 4; 6] 5)) = Some [1; 4; 4; 5].
Proof. reflexivity. Qed.

(** A block with the layers rate allocation makes of the passes up to [cuts]. *)
Definition make_block (sty numbps : Z) (rates data : list Z) (cuts : list nat) : ecblk :=
  mkE numbps (map (fun k => mkPass (nth k (pass_lens rates) 0) (is_term sty numbps k)) (seq 0 (List.length rates)))
      (make_layers rates data 0 cuts) 0 0.
Fixpoint ascending (a : nat) (cuts : list nat) (top : nat) : Prop :=
  match cuts with [] => True | n :: cuts => (a <= n <= top)%nat /\ ascending n cuts top end.

Definition cut (cuts : list nat) (i : nat) : nat := nth i (0%nat :: cuts) 0%nat.

Lemma cut_steps : forall cuts a top i, ascending a cuts top -> (i < List.length cuts)%nat ->
  (nth i (a :: cuts) 0 <= nth i cuts 0 <= top)%nat.
Proof.
  induction cuts as [| n cuts IH]; intros a top i H Hi; cbn [List.length ascending] in *; [lia |].
  destruct H as [H1 H2].
  destruct i as [| i]; [exact H1 |]. exact (IH n top i H2 ltac:(lia)).
Qed.

Lemma layers_nth : forall cuts rates data a i, (i < List.length cuts)%nat ->
  nth i (make_layers rates data a cuts) (mkLayer 0 []) = make_layer rates data (nth i (a :: cuts) 0%nat) (nth i cuts 0%nat).
Proof.
  induction cuts as [| n cuts IH]; intros rates data a i Hi; cbn [List.length] in Hi; [lia |].
  destruct i as [| i]; [reflexivity |]. cbn [make_layers nth]. apply IH. lia.
Qed.

(** A block with these layers is as the round trip wants it, and its layers
    contain the data up to the rate of the last pass in them. *)
Theorem c20_blocks : forall sty numbps nb rates data cuts,
  (forall i j, (i <= j < List.length rates)%nat -> 0 <= nth i rates 0 <= nth j rates 0 /\ nth j rates 0 <= Z.of_nat (List.length data)) ->
  Forall byte_range data -> Z.of_nat (List.length data) < 2 ^ 25 ->
  ascending 0 cuts (List.length rates) ->
  rates = [] /\ - 2 ^ 31 <= numbps \/ 0 < numbps <= 37 /\ List.length rates = Z.to_nat (3 * numbps - 2) ->
  0 <= nb - numbps <= 998 -> nb < 2 ^ 31 ->
  let c := make_block sty numbps rates data cuts in
  block_ok sty (List.length cuts) nb c /\
  forall n, (n <= List.length cuts)%nat ->
    total n c = cut cuts n /\ content n c = firstn (Z.to_nat (rate_upto rates (cut cuts n))) data.
Proof.
  intros sty numbps nb rates data cuts Hr Hb Hd Hcuts Hbp Hnb Hnb2 c.
  assert (RU : forall a b, (a <= b <= List.length rates)%nat -> 0 <= rate_upto rates a <= rate_upto rates b /\
    rate_upto rates b <= Z.of_nat (List.length data)).
  { intros a b Hab. destruct a as [| a], b as [| b]; cbn [rate_upto]; try lia.
    - pose proof (Hr b b ltac:(lia)). lia.
    - apply Hr. lia. }
  assert (CU : forall i, (i < List.length cuts)%nat -> (cut cuts i <= cut cuts (S i) <= List.length rates)%nat).
  { intros i Hi. unfold cut. cbn [nth]. apply (cut_steps cuts 0 (List.length rates) i Hcuts Hi). }
  assert (LY : forall i, (i < List.length cuts)%nat -> layer_of i c = make_layer rates data (cut cuts i) (cut cuts (S i))).
  { intros i Hi. unfold layer_of, c, make_block. cbn [e_layers]. rewrite layers_nth by exact Hi. reflexivity. }
  assert (ML : forall i, (i < List.length cuts)%nat -> make_layer rates data (cut cuts i) (cut cuts (S i)) =
    mkLayer (cut cuts (S i) - cut cuts i)
      (if (cut cuts (S i) - cut cuts i =? 0)%nat then []
       else firstn (Z.to_nat (rate_upto rates (cut cuts (S i)) - rate_upto rates (cut cuts i)))
              (skipn (Z.to_nat (rate_upto rates (cut cuts i))) data))).
  { intros i Hi. unfold make_layer. destruct (RU _ _ (CU i Hi)) as [X1 X2]. rewrite u32_id by lia. reflexivity. }
  assert (TO : forall n, (n <= List.length cuts)%nat -> total n c = cut cuts n).
  { induction n as [| n IH]; intros Hn; [reflexivity |]. rewrite total_S, IH by lia. rewrite (LY n Hn). cbn [make_layer l_passes].
    pose proof (CU n Hn). lia. }
  assert (CO : forall n, (n <= List.length cuts)%nat -> content n c = firstn (Z.to_nat (rate_upto rates (cut cuts n))) data).
  { induction n as [| n IH]; intros Hn; [reflexivity |]. rewrite content_S, IH by lia. rewrite (LY n Hn), (ML n Hn). cbn [l_passes l_data].
    pose proof (CU n Hn) as X. destruct (RU _ _ X) as [X1 X2].
    destruct (Nat.eqb_spec (cut cuts (S n) - cut cuts n) 0) as [E | E].
    - replace (cut cuts (S n)) with (cut cuts n) by lia. apply app_nil_r.
    - rewrite <- (firstn_skipn (Z.to_nat (rate_upto rates (cut cuts n))) data) at 3.
      rewrite firstn_app, firstn_length. rewrite (firstn_all2 (n := Z.to_nat (rate_upto rates (cut cuts (S n)))))
        by (rewrite firstn_length; lia).
      f_equal. f_equal. lia. }
  assert (PL : forall k, (k < List.length rates)%nat -> nth k (pass_lens rates) 0 = rate_upto rates (S k) - rate_upto rates k).
  { intros k Hk. unfold pass_lens.
    rewrite (nth_indep _ 0 ((fun k => u32 (rate_upto rates (S k) - rate_upto rates k)) 0%nat)) by (rewrite map_length, seq_length; exact Hk).
    rewrite (map_nth (fun k => u32 (rate_upto rates (S k) - rate_upto rates k))), seq_nth by exact Hk.
    destruct (RU k (S k) ltac:(lia)) as [X1 X2]. cbn [Nat.add]. apply u32_id. lia. }
  set (ps := e_pass c).
  assert (Hlen : List.length ps = List.length rates) by (unfold ps, c, make_block; cbn [e_pass]; rewrite map_length, seq_length; reflexivity).
  assert (NP : forall k, (k < List.length rates)%nat -> nth k ps (mkPass 0 false) =
    mkPass (rate_upto rates (S k) - rate_upto rates k) (is_term sty numbps k)).
  { intros k Hk. unfold ps, c, make_block. cbn [e_pass].
    rewrite (nth_indep _ (mkPass 0 false) ((fun k => mkPass (nth k (pass_lens rates) 0) (is_term sty numbps k)) 0%nat))
      by (rewrite map_length, seq_length; exact Hk).
    rewrite (map_nth (fun k => mkPass (nth k (pass_lens rates) 0) (is_term sty numbps k))), seq_nth by exact Hk.
    cbn [Nat.add]. rewrite PL by exact Hk. reflexivity. }
  assert (SUM : forall m a, (a + m <= List.length rates)%nat -> lsum (firstn m (skipn a ps)) = rate_upto rates (a + m) - rate_upto rates a).
  { induction m as [| m IH]; intros a Ha; [cbn [firstn lsum fold_right]; rewrite Nat.add_0_r; lia |].
    assert (E : skipn a ps = nth a ps (mkPass 0 false) :: skipn (S a) ps).
    { clear - Ha Hlen. revert a Ha. assert (G : forall (l : list pass) a, (a < List.length l)%nat -> skipn a l = nth a l (mkPass 0 false) :: skipn (S a) l).
      { induction l as [| p l IH]; intros [| a] H; cbn [List.length] in H; try lia; [reflexivity |]. cbn [skipn nth]. apply IH. lia. }
      intros a Ha. apply G. lia. }
    rewrite E. cbn [firstn lsum fold_right]. fold (lsum (firstn m (skipn (S a) ps))). rewrite IH by lia. rewrite NP by lia.
    cbn [p_len]. replace (S a + m)%nat with (a + S m)%nat by lia. lia. }
  split; [| intros n Hn; split; [apply TO | apply CO]; exact Hn].
  unfold block_ok. fold ps. change (e_numbps c) with numbps. rewrite Hlen, TO by lia.
  assert (TL : (cut cuts (List.length cuts) <= List.length rates)%nat).
  { destruct (List.length cuts) as [| n] eqn:E; [unfold cut; cbn; lia |]. apply CU. lia. }
  split; [destruct Hbp as [[_ Hbp] | Hbp]; lia |].
  split. { intros Hc. destruct Hbp as [[-> _] | Hbp]; [cbn [List.length] in TL; lia | lia]. }
  split; [exact Hnb |]. split; [exact Hnb2 |]. split; [exact TL |].
  split.
  { intros k Hk. rewrite NP by lia. cbn [p_term]. destruct Hbp as [[-> _] | [H1 H2]]; [cbn in Hk; lia |].
    apply c20_term_flags; lia. }
  split.
  { apply Forall_forall. intros p Hp. destruct (In_nth _ _ (mkPass 0 false) Hp) as (k & Hk & <-). rewrite NP by lia. cbn [p_len].
    destruct (RU k (S k) ltac:(lia)). lia. }
  split.
  { pose proof (SUM (List.length rates) 0%nat ltac:(lia)) as X. rewrite <- Hlen in X at 1. cbn [skipn] in X. rewrite firstn_all in X. rewrite X.
    cbn [Nat.add rate_upto]. destruct (RU (List.length rates) (List.length rates) ltac:(lia)). lia. }
  intros i Hi. cbv zeta. rewrite (LY i Hi), (ML i Hi), TO by lia. cbn [l_passes l_data]. pose proof (CU i Hi) as X. destruct (RU _ _ X) as [X1 X2].
  split. { destruct Hbp as [[-> _] | [H1 H2]]; [cbn [List.length] in X; lia | lia]. }
  assert (DL : forall a b, (List.length (firstn a (skipn b data)) <= List.length data)%nat)
    by (intros; rewrite firstn_length, skipn_length; lia).
  destruct (Nat.eqb_spec (cut cuts (S i) - cut cuts i) 0) as [E | E].
  - split; [cbn; lia |]. split; [constructor |]. intros Y. contradiction.
  - split; [specialize (DL (Z.to_nat (rate_upto rates (cut cuts (S i)) - rate_upto rates (cut cuts i))) (Z.to_nat (rate_upto rates (cut cuts i)))); lia |].
    split.
    { apply Forall_forall. intros y Hy. apply (proj1 (Forall_forall _ _) Hb). rewrite <- (firstn_skipn (Z.to_nat (rate_upto rates (cut cuts i))) data).
      apply in_or_app. right. rewrite <- (firstn_skipn (Z.to_nat (rate_upto rates (cut cuts (S i)) - rate_upto rates (cut cuts i))) (skipn _ data)).
      apply in_or_app. left. exact Hy. }
    intros _. rewrite SUM by lia. replace (cut cuts i + (cut cuts (S i) - cut cuts i))%nat with (cut cuts (S i)) by lia.
    rewrite firstn_length, skipn_length. lia.
Qed.

(** ** C20: examples *)

Definition demo_tree (w h : nat) : tree := match tgt_create w h with Some t => t | None => mkTree [] 0 blank end.
Definition demo_data : list Z := map Z.of_nat (seq 1 30).
(** A block of five bit-planes: thirteen passes, one byte each but the first. *)
Definition demo_rates : list Z := [3; 4; 5; 6; 7; 8; 9; 10; 11; 12; 13; 14; 20].
Definition demo_bands (sty : Z) : list eband :=
  [mkEB 8 (demo_tree 2 1) (demo_tree 2 1)
     [make_block sty 5 demo_rates demo_data [2; 2; 12]%nat; make_block sty 5 demo_rates demo_data [0; 13; 13]%nat];
   mkEB 6 (demo_tree 1 1) (demo_tree 1 1) [make_block sty (-2) [] [] [0; 0; 0]%nat]].
Definition demo_blank : dblk := mkD 0 0 [] 0 0 0 0 [].
Definition demo_dbands : list dband :=
  [mkDB 8 (demo_tree 2 1) (demo_tree 2 1) [demo_blank; demo_blank]; mkDB 6 (demo_tree 1 1) (demo_tree 1 1) [demo_blank]].

Example c20_demo_paired : forall sty, Forall2 (paired sty 3) (demo_bands sty) demo_dbands.
Proof.
  assert (M : forall l, l = demo_rates -> forall i j, (i <= j < List.length l)%nat -> 0 <= nth i l 0 <= nth j l 0 /\ nth j l 0 <= 30).
  { intros l El i j Hij. subst l. unfold demo_rates in *. cbn [List.length] in Hij.
    assert (Hi : (i < 13)%nat) by lia. assert (Hj : (j < 13)%nat) by lia.
    do 13 (destruct i as [| i]; [do 13 (destruct j as [| j]; [cbn [nth]; lia |]); lia |]). lia. }
  assert (B : Forall byte_range demo_data).
  { unfold demo_data. apply Forall_map. apply Forall_forall. intros x Hx. apply in_seq in Hx. unfold byte_range. lia. }
  intros sty. unfold demo_bands, demo_dbands.
  assert (T : forall w h, tgt_create w h = Some (demo_tree w h) -> reached (demo_tree w h) (demo_tree w h)) by (intros; apply reached_start).
  constructor; [| constructor; [| constructor]].
  - split; [reflexivity |]. split; [reflexivity |]. cbn [eb_blocks eb_numbps db_blocks eb_incl eb_imsb db_incl db_imsb].
    split; [| split; [repeat constructor |]].
    + constructor; [| constructor; [| constructor]].
      * apply (c20_blocks sty 5 8 demo_rates demo_data [2; 2; 12]%nat); first [exact B | apply M; reflexivity | right; split; [lia | reflexivity] | cbn; lia].
      * apply (c20_blocks sty 5 8 demo_rates demo_data [0; 13; 13]%nat); first [exact B | apply M; reflexivity | right; split; [lia | reflexivity] | cbn; lia].
    + right. exists 2%nat, 1%nat, (demo_tree 2 1). split; [reflexivity |]. split; [reflexivity |]. repeat split; apply reached_start.
  - split; [reflexivity |]. split; [reflexivity |]. cbn [eb_blocks eb_numbps db_blocks eb_incl eb_imsb db_incl db_imsb].
    split; [| split; [repeat constructor |]].
    + constructor; [| constructor].
      apply (c20_blocks sty (-2) 6 [] [] [0; 0; 0]%nat); first [left; split; [reflexivity | lia] | constructor; fail | intros i j Hij; cbn in Hij; lia | cbn; lia].
    + right. exists 1%nat, 1%nat, (demo_tree 1 1). split; [reflexivity |]. split; [reflexivity |]. repeat split; apply reached_start.
Qed.

Example c20_demo_packets :
  match encode_layers 6 0 [(0, 100); (1, 100); (258, 100)] (demo_bands 1) with Some (pkts, _) => pkts | None => [] end =
  [[255; 145; 0; 4; 0; 0; 227; 136; 0; 255; 146; 1; 2; 3; 4];
   [255; 145; 0; 4; 0; 1; 191; 56; 194; 192; 255; 146; 1; 2; 3; 4; 5; 6; 7; 8; 9; 10; 11; 12; 13; 14; 15; 16; 17; 18; 19; 20];
   [255; 145; 0; 4; 1; 2; 252; 130; 8; 255; 146; 5; 6; 7; 8; 9; 10; 11; 12; 13; 14]].
Proof. vm_compute. reflexivity. Qed.

Example c20_demo_decoded :
  match encode_layers 6 0 [(0, 100); (1, 100); (258, 100)] (demo_bands 1) with
  | Some (pkts, _) =>
      match decode_layers 1 6 0 demo_dbands (map (fun p => p ++ [255; 145]) pkts) with
      | Some ([b0; b1], rests) =>
          rests = [[255; 145]; [255; 145]; [255; 145]] /\
          map (fun c => (d_numbps c, map (fun s => (s_real s, s_len s)) (d_segs c), concat (d_chunks c))) (db_blocks b0) =
          [(5, [(10, 12); (2, 2)], firstn 14 demo_data); (5, [(10, 12); (2, 2); (1, 6)], firstn 20 demo_data)] /\
          map d_numsegs (db_blocks b1) = [0%nat]
      | _ => False
      end
  | None => False
  end.
Proof. vm_compute. split; [reflexivity |]. split; reflexivity. Qed.

(** ** C20: empty packets *)

(** A packet whose first bit is zero is one byte, besides markers, and changes
    nothing. *)
Theorem c20_empty_packet : forall sty csty packno room room2 lay sop eph r1 r2 b ds rest,
  put_sop csty packno room = Some (sop, r1) -> put_eph csty room2 = Some (eph, r2) -> 0 <= b < 128 ->
  decode_packet sty csty lay ds (sop ++ b :: eph ++ rest) = Some (if (lay =? 0)%nat then map dec_start ds else ds, rest).
Proof.
  intros sty csty packno room room2 lay sop eph r1 r2 b ds rest Hsop Heph Hb. unfold decode_packet, read_header.
  rewrite (skip_sop_put _ _ _ _ _ _ Hsop). destruct (skip_eph_put csty _ _ _ rest Heph) as [He _].
  assert (R : read1 (init_dec (b :: eph ++ rest)) = (false, mkR (eph ++ rest) 1 b 7)).
  { unfold read1, init_dec. cbn [read_loop]. unfold getbit, bytein. cbn [r_ct r_in r_buf r_pos fst].
    change (0 =? 0) with true. cbn iota. change (Z.land (Z.shiftl 0 8) 65535) with 0. change (0 =? 65280) with false. cbn iota.
    cbn [fst r_ct r_in r_buf r_pos]. change (Z.lor 0 b) with b. change (8 - 1) with 7. change (0 + 1) with 1.
    rewrite Z.shiftr_div_pow2 by lia. change (2 ^ 7) with 128. rewrite Z.div_small by lia. reflexivity. }
  rewrite R. cbn [negb]. unfold inalign. cbn [r_buf].
  replace (Z.land b 255) with b. 2:{ change 255 with (Z.ones 8). rewrite Z.land_ones by lia. change (2 ^ 8) with 256. rewrite Z.mod_small by lia. reflexivity. }
  replace (b =? 255) with false by (symmetry; apply Z.eqb_neq; lia). cbn [fst r_in]. rewrite He. reflexivity.
Qed.

(** ** C43: skipped packets *)

(** A run over the packets of a tile: the precinct (of some component and
    resolution) and layer of each, and whether it is wanted.  Result: the states
    of all precincts and what was left after each packet. *)
Fixpoint packets (sty csty : nat -> Z) (plan : list (nat * nat * bool)) (st : nat -> list dband) (data : list Z)
  : option ((nat -> list dband) * list (list Z)) :=
  match plan with
  | [] => Some (st, [])
  | (p, lay, want) :: plan =>
      match one_packet want (sty p) (csty p) lay (st p) data with
      | None => None
      | Some (bs, rest) =>
          match packets sty csty plan (fun q => if (q =? p)%nat then bs else st q) rest with
          | None => None
          | Some (st, rests) => Some (st, rest :: rests)
          end
      end
  end.

(** For all data whatever: two runs over the same packets that differ in which
    ones are wanted both fail or both find every packet at the same place; and
    a precinct whose packets are wanted alike in both ends in the same state,
    whatever is skipped elsewhere. *)
Theorem c43_in_step : forall sty csty plan plan' st data,
  map fst plan = map fst plan' -> (forall p, bands_lens (st p)) -> Z.of_nat (List.length data) < 2 ^ 32 ->
  match packets sty csty plan st data, packets sty csty plan' st data with
  | Some (st1, rests), Some (st2, rests') =>
      rests = rests' /\
      forall p, filter (fun e => (fst (fst e) =? p)%nat) plan = filter (fun e => (fst (fst e) =? p)%nat) plan' -> st1 p = st2 p
  | None, None => True
  | _, _ => False
  end.
Proof.
  intros sty csty plan plan' st data Hp Hl Hd.
  assert (G : forall plan plan' st st' data (same : nat -> Prop), map fst plan = map fst plan' -> (forall p, bands_lens (st p)) ->
    Z.of_nat (List.length data) < 2 ^ 32 -> (forall p, map strip_band (st p) = map strip_band (st' p)) ->
    (forall p, same p -> st p = st' p) ->
    match packets sty csty plan st data, packets sty csty plan' st' data with
    | Some (st1, rests), Some (st2, rests') =>
        rests = rests' /\
        forall p, same p -> filter (fun e => (fst (fst e) =? p)%nat) plan = filter (fun e => (fst (fst e) =? p)%nat) plan' -> st1 p = st2 p
    | None, None => True
    | _, _ => False
    end).
  2:{ pose proof (G plan plan' st st data (fun _ => True) Hp Hl Hd (fun _ => eq_refl) (fun _ _ => eq_refl)) as X.
      destruct (packets sty csty plan st data) as [[st1 r1] |], (packets sty csty plan' st data) as [[st2 r2] |]; try exact X.
      destruct X as [X1 X2]. split; [exact X1 |]. intros p. apply X2. exact I. }
  clear. induction plan as [| [[p lay] w] plan IH]; intros [| [[p' lay'] w'] plan'] st st' data same Hp Hl Hd Hst Hsame; try discriminate;
    cbn [packets].
  - split; [reflexivity |]. intros p Hs _. apply Hsame. exact Hs.
  - cbn [map fst] in Hp. assert (p' = p) by congruence. assert (lay' = lay) by congruence. subst p' lay'.
    assert (Hp2 : map fst plan = map fst plan') by congruence. clear Hp.
    pose proof (one_agree w w' (sty p) (csty p) lay (st p) (st' p) data (Hst p) (Hl p) Hd) as G.
    pose proof (fun H : same p => f_equal (fun l => one_packet w (sty p) (csty p) lay l data) (Hsame p H)) as Q. cbn beta in Q.
    destruct (one_packet w (sty p) (csty p) lay (st p) data) as [[a r] |],
             (one_packet w' (sty p) (csty p) lay (st' p) data) as [[b r'] |] eqn:Eb; try contradiction; [| exact I].
    destruct G as (G1 & G2 & G3 & G4). subst r'. pose proof (suf_length _ _ G3) as Hlen.
    pose proof (IH plan' (fun q => if (q =? p)%nat then a else st q) (fun q => if (q =? p)%nat then b else st' q) r
      (fun q => same q /\ (q = p -> w = w')) Hp2) as X.
    assert (X0 := X ltac:(intros q; cbn beta; destruct (Nat.eqb_spec q p); [exact G4 | apply Hl]) ltac:(lia)
      ltac:(intros q; cbn beta; destruct (Nat.eqb_spec q p); [exact G1 | apply Hst])). clear X.
    assert (X := X0 ltac:(intros q [S1 S2]; cbn beta; destruct (Nat.eqb_spec q p) as [Eq |];
      [subst q; specialize (S2 eq_refl); subst w'; specialize (Q S1); rewrite Eb in Q; congruence | apply Hsame; exact S1])). clear X0.
    destruct (packets sty csty plan _ r) as [[st1 rs1] |], (packets sty csty plan' _ r) as [[st2 rs2] |]; try contradiction; [| exact I].
    destruct X as [X1 X2]. split; [congruence |]. intros q Hs Hf. cbn [filter fst] in Hf.
    destruct (Nat.eqb_spec p q) as [E | E].
    + apply X2; [split; [exact Hs |]; intros _ | ]; congruence.
    + apply X2; [split; [exact Hs |]; intros Y; congruence | exact Hf].
Qed.

(** Skipping is not the same as reading: it leaves the block without its bytes. *)
Example c43_example :
  match encode_layers 6 0 [(0, 100); (1, 100); (258, 100)] (demo_bands 1) with
  | Some (pkts, _) =>
      let data := concat pkts ++ [1; 2; 3] in
      match packets (fun _ => 1) (fun _ => 6) [(0, 0, true); (0, 1, false); (0, 2, false)]%nat (fun _ => demo_dbands) data,
            packets (fun _ => 1) (fun _ => 6) [(0, 0, true); (0, 1, true); (0, 2, true)]%nat (fun _ => demo_dbands) data with
      | Some (st, r), Some (st', r') => r = r' /\ last r [] = [1; 2; 3] /\
          map (fun c => concat (d_chunks c)) (db_blocks (hd (mkDB 0 (demo_tree 1 1) (demo_tree 1 1) []) (st 0%nat))) = [firstn 4 demo_data; []] /\
          map (fun c => concat (d_chunks c)) (db_blocks (hd (mkDB 0 (demo_tree 1 1) (demo_tree 1 1) []) (st' 0%nat))) =
            [firstn 14 demo_data; firstn 20 demo_data]
      | _, _ => False
      end
  | None => False
  end.
Proof. vm_compute. repeat split. Qed.

Print Assumptions c20_round_trip.
Print Assumptions c20_succeeds.
Print Assumptions c20_blocks.
Print Assumptions c20_rates.
Print Assumptions c20_term_flags.
Print Assumptions c20_empty_packet.
Print Assumptions c43_in_step.
