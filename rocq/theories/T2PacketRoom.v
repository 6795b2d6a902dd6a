(** The packet encoder succeeds when the buffer is large enough. *)

From Coq Require Import ZArith List Bool Arith Lia ZifyNat.
From Verif Require Import I32 MathModel ZBits BioModel BioSpec BioProofs BioStream TgtModel TgtProofs TgtCoding
  T2CodesModel T2CodesProofs Ints T2PacketModel T2PacketSpec T2PacketSegs T2PacketProofs T2PacketBands.
Import ListNotations.
Local Open Scope Z_scope.

Definition widths_ok (fs : list (Z * Z)) : Prop := Forall (fun f => 1 <= snd f <= 32) fs.

Lemma block_widths : forall sty lay nlay nb c d incl imsb i fs incl' imsb' c',
  block_ok sty nlay nb c -> (lay < nlay)%nat -> brel sty lay nb c d ->
  enc_block lay incl imsb i c = (fs, incl', imsb', c') -> widths_ok fs.
Proof.
  intros sty lay nlay nb c d incl imsb i fs incl' imsb' c' Hok Hlay Hrel He.
  pose proof Hrel as (Hdone & Hreal & Hchunks & Hcase). unfold enc_block in He.
  destruct (if (e_done c =? 0)%nat then let '(bs, t) := tgt_encode incl i (i32 (Z.of_nat lay + 1)) in (bit_fields bs, t)
            else ([(if (l_passes (layer_of lay c) =? 0)%nat then 0 else 1, 1)], incl)) as [f0 incl1] eqn:E0.
  assert (W0 : widths_ok f0).
  { destruct (e_done c =? 0)%nat.
    - destruct (tgt_encode incl i (i32 (Z.of_nat lay + 1))) as [bs t]. injection E0 as <- <-. apply bit_fields_ok.
    - injection E0 as <- <-. constructor; [cbn; lia | constructor]. }
  destruct (l_passes (layer_of lay c) =? 0)%nat eqn:En; [injection He as <- <- <- <-; exact W0 |].
  set (n := l_passes (layer_of lay c)) in *.
  pose proof Hok as (B1 & B0 & B2 & B3 & B4 & B5 & B6 & B7 & B8). destruct (B8 lay Hlay) as (B9 & B10 & B11 & B12). fold n in B9, B12.
  assert (Hn : (1 <= n <= 164)%nat) by (apply Nat.eqb_neq in En; lia).
  specialize (B12 ltac:(lia)).
  assert (Hpn : (total lay c + n <= List.length (e_pass c))%nat).
  { pose proof (total_mono (S lay) nlay c ltac:(lia)) as X. rewrite total_S in X. fold n in X. lia. }
  destruct (block_flags _ _ _ _ Hok) as [Hflags Hlens].
  destruct (if (e_done c =? 0)%nat then let '(bs, t) := tgt_encode imsb i 999 in (bit_fields bs, t, 3)
            else ([], imsb, e_lenbits c)) as [[f1 imsb1] lenbits] eqn:E1.
  assert (W1 : widths_ok f1 /\ 3 <= lenbits <= 25).
  { destruct (e_done c =? 0)%nat eqn:Ed.
    - destruct (tgt_encode imsb i 999) as [bs t]. injection E1 as <- <- <-. split; [apply bit_fields_ok | lia].
    - injection E1 as <- <- <-. split; [constructor |].
      destruct Hcase as [(H1 & _) | (_ & _ & _ & _ & _ & H1 & H2 & H3 & H4)]; [apply Nat.eqb_neq in Ed; lia | exact H2]. }
  destruct W1 as [W1 Hlb].
  set (ps := firstn n (skipn (e_done c) (e_pass c))) in *.
  assert (Hpslen : List.length ps = n) by (unfold ps; rewrite firstn_length, skipn_length; lia).
  assert (Hps : lens_ok ps) by (apply lens_firstn, lens_skipn; exact Hlens).
  assert (Hbounds : seg_bounds (segments ps 0 0)).
  { destruct Hps as [X1 X2]. eapply Forall_impl; [| apply segments_bounds; try assumption; try lia].
    assert (B13 : Z.of_nat (List.length (l_data (layer_of lay c))) = lsum ps) by (unfold ps; rewrite Hdone; exact B12).
    intros [x y]. cbn [fst snd]. lia. }
  pose proof (increment_spec _ _ Hbounds Hlb) as Hinc2. cbv zeta in Hinc2. set (inc := increment lenbits (segments ps 0 0)) in *.
  destruct Hinc2 as (I1 & I2 & I3). injection He as <- <- <- <-.
  apply Forall_app. split; [exact W0 |]. apply Forall_app. split; [exact W1 |].
  apply Forall_app. split; [apply numpasses_ok |]. apply Forall_app. split; [apply commacode_ok |].
  rewrite (u32_id (lenbits + inc)) by lia.
  apply Forall_forall. intros f Hf. apply in_map_iff in Hf. destruct Hf as (s & <- & Hs). cbn [snd].
  pose proof (proj1 (Forall_forall _ _) I3 s Hs) as [_ X]. pose proof (proj1 (Forall_forall _ _) Hbounds s Hs) as [Y _].
  rewrite (i32_id (fst s)) by (unfold in_i32; lia). rewrite u32_id by lia. lia.
Qed.

Lemma blocks_widths : forall l dl sty lay nlay nb incl imsb i fs incl' imsb' l', (lay < nlay)%nat ->
  Forall (block_ok sty nlay nb) l -> Forall2 (brel sty lay nb) l dl ->
  enc_blocks lay incl imsb i l = (fs, incl', imsb', l') -> widths_ok fs.
Proof.
  induction l as [| c l IH]; intros dl sty lay nlay nb incl imsb i fs incl' imsb' l' Hlay Hok Hrel He;
    inversion Hrel as [| ? d ? dl0 R1 R2]; subst; cbn [enc_blocks] in He.
  - injection He as <- <- <- <-. constructor.
  - inversion Hok as [| ? ? Hok1 Hok2]; subst.
    destruct (enc_block lay incl imsb i c) as [[[f i1] m1] c1] eqn:E.
    destruct (enc_blocks lay i1 m1 (S i) l) as [[[fs2 i2] m2] l2] eqn:E2. injection He as <- <- <- <-.
    apply Forall_app. split; [eapply block_widths; eassumption | eapply IH; eassumption].
Qed.

Lemma bands_widths : forall bs ds sty lay nlay fs bs', (lay < nlay)%nat -> Forall2 (band_rel sty lay nlay) bs ds ->
  enc_bands lay bs = (fs, bs') -> widths_ok fs.
Proof.
  induction bs as [| b bs IH]; intros ds sty lay nlay fs bs' Hlay Hrel He;
    inversion Hrel as [| ? d ? ds0 R1 R2]; subst; cbn [enc_bands] in He.
  - injection He as <- <-. constructor.
  - destruct (enc_band lay b) as [f b1] eqn:E1. destruct (enc_bands lay bs) as [fs2 bs2] eqn:E2. injection He as <- <-.
    apply Forall_app. split; [| eapply IH; eassumption]. unfold enc_band in E1.
    destruct (enc_blocks _ _ _ _ _) as [[[f' i1] m1] l1] eqn:E. injection E1 as <- <-.
    destruct R1 as (_ & Hok & Hr & _). eapply blocks_widths; eassumption.
Qed.

(** Body size. *)
Definition blk_size (lay : nat) (c : ecblk) : Z :=
  if (l_passes (layer_of lay c) =? 0)%nat then 0 else Z.of_nat (List.length (l_data (layer_of lay c))).
Definition blks_size (lay : nat) (l : list ecblk) : Z := fold_right (fun c a => blk_size lay c + a) 0 l.
Definition body_size (lay : nat) (l : list eband) : Z := fold_right (fun b a => blks_size lay (eb_blocks b) + a) 0 l.

Lemma blk_size_nonneg : forall lay c, 0 <= blk_size lay c.
Proof. intros. unfold blk_size. destruct (_ =? _)%nat; lia. Qed.
Lemma blks_size_nonneg : forall lay l, 0 <= blks_size lay l.
Proof. induction l as [| c l IH]; cbn; [lia |]. fold (blks_size lay l). pose proof (blk_size_nonneg lay c). lia. Qed.
Lemma body_size_nonneg : forall lay l, 0 <= body_size lay l.
Proof. induction l as [| c l IH]; cbn; [lia |]. fold (body_size lay l). pose proof (blks_size_nonneg lay (eb_blocks c)). lia. Qed.

(** The state after the body does not depend on the room. *)
Definition done_block (lay : nat) (c : ecblk) : ecblk :=
  if (l_passes (layer_of lay c) =? 0)%nat then c
  else mkE (e_numbps c) (e_pass c) (e_layers c) (e_done c + l_passes (layer_of lay c)) (e_lenbits c).
Definition done_band (lay : nat) (b : eband) : eband :=
  mkEB (eb_numbps b) (eb_incl b) (eb_imsb b) (map (done_block lay) (eb_blocks b)).

Lemma body_blocks_state : forall l lay room d room' l', enc_body_blocks lay room l = Some (d, room', l') ->
  l' = map (done_block lay) l.
Proof.
  induction l as [| c l IH]; intros lay room d room' l' H; cbn [enc_body_blocks map] in H |- *.
  - injection H as <- <- <-. reflexivity.
  - unfold done_block at 1. destruct (l_passes (layer_of lay c) =? 0)%nat.
    + destruct (enc_body_blocks lay room l) as [[[d2 r2] l2] |] eqn:E; [| discriminate]. injection H as <- <- <-.
      f_equal. eapply IH. exact E.
    + destruct (room <? _); [discriminate |].
      destruct (enc_body_blocks lay (room - _) l) as [[[d2 r2] l2] |] eqn:E; [| discriminate]. injection H as <- <- <-.
      f_equal. eapply IH. exact E.
Qed.

Lemma body_blocks_room : forall l lay room, blks_size lay l <= room ->
  exists d, enc_body_blocks lay room l = Some (d, room - blks_size lay l, map (done_block lay) l) /\ Z.of_nat (List.length d) = blks_size lay l.
Proof.
  induction l as [| c l IH]; intros lay room H; cbn [enc_body_blocks map blks_size fold_right] in *.
  - exists []. rewrite Z.sub_0_r. split; reflexivity.
  - fold (blks_size lay l) in *. pose proof (blks_size_nonneg lay l) as Hp. unfold done_block at 1. unfold blk_size in *.
    destruct (l_passes (layer_of lay c) =? 0)%nat.
    + destruct (IH lay room ltac:(lia)) as (d & -> & Hd). exists d. split; [reflexivity | lia].
    + replace (room <? _) with false by (symmetry; apply Z.ltb_ge; lia).
      destruct (IH lay (room - Z.of_nat (List.length (l_data (layer_of lay c)))) ltac:(lia)) as (d & -> & Hd).
      eexists. rewrite Z.sub_add_distr. split; [reflexivity |]. rewrite app_length. lia.
Qed.

Lemma body_state : forall l lay room d room' l', enc_body lay room l = Some (d, room', l') -> l' = map (done_band lay) l.
Proof.
  induction l as [| b l IH]; intros lay room d room' l' H; cbn [enc_body map] in H |- *.
  - injection H as <- <- <-. reflexivity.
  - destruct (enc_body_blocks lay room (eb_blocks b)) as [[[d1 r1] l1] |] eqn:E1; [| discriminate].
    destruct (enc_body lay r1 l) as [[[d2 r2] l2] |] eqn:E; [| discriminate]. injection H as <- <- <-.
    unfold done_band at 1. rewrite (body_blocks_state _ _ _ _ _ _ E1). f_equal. eapply IH. exact E.
Qed.

Lemma body_room : forall l lay room, body_size lay l <= room ->
  exists d r, enc_body lay room l = Some (d, r, map (done_band lay) l) /\ Z.of_nat (List.length d) = body_size lay l.
Proof.
  induction l as [| b l IH]; intros lay room H; cbn [enc_body map body_size fold_right] in *.
  - exists [], room. split; reflexivity.
  - fold (body_size lay l) in *. pose proof (body_size_nonneg lay l) as Hp.
    destruct (body_blocks_room (eb_blocks b) lay room ltac:(lia)) as (d & -> & Hd).
    destruct (IH lay (room - blks_size lay (eb_blocks b)) ltac:(lia)) as (d2 & r & -> & Hd2). eexists. eexists. split; [reflexivity |]. rewrite app_length. lia.
Qed.

Definition next_state (lay : nat) (es : list eband) : list eband :=
  map (done_band lay) (snd (enc_bands lay (if (lay =? 0)%nat then map enc_start es else es))).

Lemma packet_state : forall csty packno lay room es bytes es', encode_packet csty packno lay room es = Some (bytes, es') ->
  es' = next_state lay es.
Proof.
  intros csty packno lay room es bytes es' He. unfold encode_packet in He. unfold next_state.
  destruct (put_sop csty packno room) as [[sop room1] |]; [| discriminate].
  destruct (enc_bands lay _) as [fs es1]. cbn [snd].
  destruct (write_fields (init_enc (Z.to_nat room1)) ((1, 1) :: fs)) as [w |]; [| discriminate].
  destruct (flush w) as [w' ok]. destruct ok; [| discriminate].
  destruct (put_eph csty (room1 - w_numbytes w')) as [[eph room2] |]; [| discriminate].
  destruct (enc_body lay room2 es1) as [[[body room3] es2] |] eqn:E; [| discriminate].
  injection He as <- <-. eapply body_state. exact E.
Qed.

Lemma flush_size : forall len l w w', write_fields (init_enc len) l = Some w -> flush w = (w', true) ->
  7 * w_numbytes w' <= Z.of_nat (List.length (field_bits l)) + 15.
Proof.
  intros len l w w' Hw Hf. apply write_fields_bits in Hw.
  assert (P : paced w (Z.of_nat (List.length (field_bits l)))).
  { subst w. apply (putbits_paced _ (init_enc len) 0). split; cbn; lia. }
  destruct P as [P1 P2]. unfold flush, byteout in Hf. unfold w_numbytes.
  destruct (w_room w) as [| n]; [discriminate |].
  destruct (_ =? 65280); cbn [w_ct w_room w_out] in Hf.
  - change (7 =? 7) with true in Hf. cbn iota in Hf. destruct n as [| n].
    + discriminate.
    + destruct (_ =? 65280); injection Hf as <-; cbn [w_out List.length]; lia.
  - change (8 =? 7) with false in Hf. cbn iota in Hf. injection Hf as <-. cbn [w_out List.length]. lia.
Qed.

Lemma packet_room : forall sty csty lay nlay es ds, (lay < nlay)%nat ->
  Forall2 (band_rel sty lay nlay) (if (lay =? 0)%nat then map enc_start es else es) ds ->
  exists R, forall packno room, R <= room -> exists bytes, encode_packet csty packno lay room es = Some (bytes, next_state lay es) /\ Z.of_nat (List.length bytes) <= R.
Proof.
  intros sty csty lay nlay es ds Hlay Hrel.
  destruct (enc_bands lay (if (lay =? 0)%nat then map enc_start es else es)) as [fs es1] eqn:Eb.
  exists (6 + (Z.of_nat (List.length (field_bits ((1, 1) :: fs))) + 15) + 2 + body_size lay es1).
  intros packno room HR. pose proof (body_size_nonneg lay es1) as Hbn.
  unfold encode_packet. rewrite Eb. unfold next_state. rewrite Eb. cbn [snd].
  assert (S : exists sop room1, put_sop csty packno room = Some (sop, room1) /\ room - 6 <= room1 /\ (List.length sop <= 6)%nat).
  { unfold put_sop. destruct (_ =? 0); [exists [], room; split; [reflexivity | cbn; lia] |].
    replace (room <? 6) with false by (symmetry; apply Z.ltb_ge; lia). eexists. eexists. split; [reflexivity | cbn [List.length]; lia]. }
  destruct S as (sop & room1 & -> & S2 & S3).
  assert (W : widths_ok ((1, 1) :: fs)) by (constructor; [cbn; lia | eapply bands_widths; eassumption]).
  destruct (write_fields_total _ (init_enc (Z.to_nat room1)) W) as (w & Hw). rewrite Hw.
  destruct (flush_capacity _ _ _ Hw ltac:(lia)) as (w' & Hf). rewrite Hf.
  pose proof (flush_size _ _ _ _ Hw Hf) as Hs.
  assert (E : exists eph room2, put_eph csty (room1 - w_numbytes w') = Some (eph, room2) /\ body_size lay es1 <= room2 /\ (List.length eph <= 2)%nat).
  { unfold put_eph. destruct (_ =? 0); [eexists; eexists; split; [reflexivity | cbn [List.length]; unfold w_numbytes in *; lia] |].
    replace (room1 - w_numbytes w' <? 2) with false by (symmetry; apply Z.ltb_ge; unfold w_numbytes in *; lia).
    eexists. eexists. split; [reflexivity | cbn [List.length]; unfold w_numbytes in *; lia]. }
  destruct E as (eph & room2 & -> & E2 & E3).
  destruct (body_room es1 lay room2 E2) as (d & r & -> & Hd). eexists. split; [reflexivity |].
  rewrite !app_length, rev_length. unfold w_numbytes in Hs. lia.
Qed.
