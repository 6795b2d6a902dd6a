(** Code-blocks that no packet mentions stay blank. *)

From Coq Require Import ZArith List Lia Bool.
From Verif Require Import Ints I32 BioModel TgtModel T2CodesModel T2PacketModel CblkModel CblkTrip.
From Verif Require Import Ints.
Import ListNotations.
Local Open Scope Z_scope.

(** Between a packet's header and its body. *)
Definition half (d : dblk) : Prop := (d_numsegs d = 0%nat -> d_new d = 0 -> d_numbps d = 0) /\ (d_numsegs d <> 0%nat -> d_chunks d <> []).

Lemma read_loop_lo : forall n r v, 0 <= v -> 0 <= fst (read_loop n r v).
Proof.
  induction n as [| n IH]; intros r v Hv; cbn [read_loop]; [exact Hv |]. cbv zeta. apply IH. apply Z.lor_nonneg. split; [exact Hv |].
  apply Z.shiftl_nonneg, Z.land_nonneg. right. lia.
Qed.

Lemma numpasses_pos : forall r, 1 <= fst (get_numpasses r).
Proof.
  intros r. unfold get_numpasses. destruct (read1 r) as [b1 r1]. destruct (negb b1); [cbn; lia |]. destruct (read1 r1) as [b2 r2]. destruct (negb b2); [cbn; lia |].
  pose proof (read_loop_lo 2 r2 0 ltac:(lia)) as L2. unfold readn. destruct (read_loop 2 r2 0) as [n2 r3]. cbn [fst] in L2. destruct (negb (n2 =? 3)); [cbn [fst]; lia |].
  pose proof (read_loop_lo 5 r3 0 ltac:(lia)) as L5. destruct (read_loop 5 r3 0) as [n5 r4]. cbn [fst] in L5. destruct (negb (n5 =? 31)); [cbn [fst]; lia |].
  pose proof (read_loop_lo 7 r4 0 ltac:(lia)) as L7. destruct (read_loop 7 r4 0) as [n7 r5]. cbn [fst] in *. lia.
Qed.

Lemma dec_block_half : forall fuel sty lay nb incl imsb i c r incl' imsb' c' r', sound c ->
  dec_block fuel sty lay nb incl imsb i c r = Some (incl', imsb', c', r') -> half c'.
Proof.
  intros fuel sty lay nb incl imsb i c r incl' imsb' c' r' [S1 S2] H. unfold dec_block in H.
  destruct (if (d_numsegs c =? 0)%nat then _ else _) as [[inc incl1] r1]. destruct (negb inc).
  - assert (c' = mkD (d_numsegs c) (d_realsegs c) (d_segs c) (d_numbps c) (d_mb c) (d_lenbits c) 0 (d_chunks c)) as -> by congruence.
    split; cbn [d_numsegs d_new d_numbps d_chunks]; [intros; apply S1; assumption | exact S2].
  - destruct (if (d_numsegs c =? 0)%nat then _ else _) as [[[[[imsb1 r2] numbps] mb] lenbits] |]; [| discriminate].
    pose proof (numpasses_pos r2) as Np. destruct (get_numpasses r2) as [n r3]. cbn [fst] in Np. destruct (get_commacode fuel 0 r3) as [[x r4] |]; [| discriminate].
    destruct (if (d_numsegs c =? 0)%nat then _ else _) as [k segs]. destruct (dec_segs _ _ _ _ _ _ _) as [[segs' r5] |]; [| discriminate].
    assert (c' = mkD (d_numsegs c) (d_realsegs c) segs' numbps mb (u32 (lenbits + x)) n (d_chunks c)) as -> by congruence.
    split; cbn [d_numsegs d_new d_numbps d_chunks]; [lia | exact S2].
Qed.

Lemma dec_blocks_half : forall l fuel sty lay nb incl imsb i r incl' imsb' l' r', Forall sound l ->
  dec_blocks fuel sty lay nb incl imsb i l r = Some (incl', imsb', l', r') -> Forall half l'.
Proof.
  induction l as [| c l IH]; intros fuel sty lay nb incl imsb i r incl' imsb' l' r' Hs H; cbn [dec_blocks] in H; [assert (l' = []) as -> by congruence; constructor |].
  inversion Hs as [| ? ? H1 H2]; subst. destruct (dec_block fuel sty lay nb incl imsb i c r) as [[[[incl1 imsb1] c1] r1] |] eqn:E; [| discriminate].
  destruct (dec_blocks fuel sty lay nb incl1 imsb1 (S i) l r1) as [[[[incl2 imsb2] l2] r2] |] eqn:E2; [| discriminate].
  assert (l' = c1 :: l2) as -> by congruence. constructor; [exact (dec_block_half _ _ _ _ _ _ _ _ _ _ _ _ _ H1 E) | exact (IH _ _ _ _ _ _ _ _ _ _ _ _ H2 E2)].
Qed.

Lemma dec_bands_half : forall l fuel sty lay r l' r', Forall (fun b => Forall sound (db_blocks b)) l ->
  dec_bands fuel sty lay l r = Some (l', r') -> Forall (fun b => Forall half (db_blocks b)) l'.
Proof.
  induction l as [| b l IH]; intros fuel sty lay r l' r' Hs H; cbn [dec_bands] in H; [assert (l' = []) as -> by congruence; constructor |].
  inversion Hs as [| ? ? H1 H2]; subst. destruct (dec_blocks _ _ _ _ _ _ _ (db_blocks b) r) as [[[[incl1 imsb1] bl] r1] |] eqn:E; [| discriminate].
  destruct (dec_bands fuel sty lay l r1) as [[l2 r2] |] eqn:E2; [| discriminate].
  assert (l' = mkDB (db_numbps b) incl1 imsb1 bl :: l2) as -> by congruence. constructor; [exact (dec_blocks_half _ _ _ _ _ _ _ _ _ _ _ _ _ H1 E) | exact (IH _ _ _ _ _ _ H2 E2)].
Qed.

Lemma read_segs_some : forall fuel k c data c' data', read_segs fuel k c data = Some (c', data') -> d_numsegs c' <> 0%nat /\ d_chunks c' <> [].
Proof.
  induction fuel as [| fuel IH]; intros k c data c' data' H; cbn [read_segs] in H; [discriminate |].
  destruct (_ <? _); [discriminate |]. set (c1 := mkD (S k) _ _ _ _ _ _ _) in H. destruct (0 <? d_new c1).
  - exact (IH _ _ _ _ _ H).
  - assert (c' = c1) as -> by congruence. split; [cbn; lia |]. unfold c1. cbn [d_chunks]. destruct (d_chunks c); discriminate.
Qed.

Lemma read_block_sound : forall c data c' data', half c -> read_block c data = Some (c', data') -> sound c'.
Proof.
  intros c data c' data' [S1 S2] H. unfold read_block in H. destruct (Z.eqb_spec (d_new c) 0) as [E | E].
  - assert (c' = c) as -> by congruence. split; [intros N; exact (S1 N E) | exact S2].
  - destruct (read_segs _ _ _ _) as [[c1 d1] |] eqn:E1; [| discriminate]. destruct (read_segs_some _ _ _ _ _ _ E1) as [R1 R2].
    assert (c' = mkD (d_numsegs c1) (d_numsegs c1) (d_segs c1) (d_numbps c1) (d_mb c1) (d_lenbits c1) (d_new c1) (d_chunks c1)) as -> by congruence.
    split; cbn [d_numsegs d_chunks]; [contradiction | intros _; exact R2].
Qed.

Lemma read_blocks_sound : forall l data l' data', Forall half l -> read_blocks l data = Some (l', data') -> Forall sound l'.
Proof.
  induction l as [| c l IH]; intros data l' data' Hh H; cbn [read_blocks] in H; [assert (l' = []) as -> by congruence; constructor |].
  inversion Hh as [| ? ? H1 H2]; subst. destruct (read_block c data) as [[c1 d1] |] eqn:E; [| discriminate]. destruct (read_blocks l d1) as [[l2 d2] |] eqn:E2; [| discriminate].
  assert (l' = c1 :: l2) as -> by congruence. constructor; [exact (read_block_sound _ _ _ _ H1 E) | exact (IH _ _ _ H2 E2)].
Qed.

Lemma read_data_sound : forall l data l' data', Forall (fun b => Forall half (db_blocks b)) l -> read_data l data = Some (l', data') -> Forall (fun b => Forall sound (db_blocks b)) l'.
Proof.
  induction l as [| b l IH]; intros data l' data' Hh H; cbn [read_data] in H; [assert (l' = []) as -> by congruence; constructor |].
  inversion Hh as [| ? ? H1 H2]; subst. destruct (read_blocks (db_blocks b) data) as [[bl d1] |] eqn:E; [| discriminate]. destruct (read_data l d1) as [[l2 d2] |] eqn:E2; [| discriminate].
  assert (l' = mkDB (db_numbps b) (db_incl b) (db_imsb b) bl :: l2) as -> by congruence. constructor; [exact (read_blocks_sound _ _ _ _ H1 E) | exact (IH _ _ _ H2 E2)].
Qed.

Lemma packet_sound : forall sty csty lay bs data bs' rest,
  Forall (fun b => Forall sound (db_blocks b)) (if (lay =? 0)%nat then map dec_start bs else bs) ->
  decode_packet sty csty lay bs data = Some (bs', rest) -> Forall (fun b => Forall sound (db_blocks b)) bs'.
Proof.
  intros sty csty lay bs data bs' rest Hs H. unfold decode_packet, read_header in H. set (bs0 := if (lay =? 0)%nat then map dec_start bs else bs) in *.
  destruct (read1 _) as [present r]. destruct (negb present).
  - assert (bs' = bs0) as -> by congruence. exact Hs.
  - destruct (dec_bands _ _ _ bs0 r) as [[bs1 r1] |] eqn:E; [| discriminate]. destruct (inalign r1) as [r2 ok]. destruct ok; [| discriminate].
    exact (read_data_sound _ _ _ _ (dec_bands_half _ _ _ _ _ _ _ Hs E) H).
Qed.

(** Before the first packet: no bit-planes. *)
Definition blank_bands (bs : list dband) : Prop := Forall (fun b => Forall (fun d => d_numbps d = 0) (db_blocks b)) bs.

Lemma start_sound : forall bs, blank_bands bs -> Forall (fun b => Forall sound (db_blocks b)) (map dec_start bs).
Proof.
  intros bs H. induction H as [| b bs Hb H IH]; [constructor |]. cbn [map]. constructor; [| exact IH]. unfold dec_start. cbn [db_blocks]. induction Hb as [| d l Hd Hl IHl]; [constructor |].
  cbn [map]. constructor; [| exact IHl]. split; cbn [d_numsegs d_numbps]; [intros _; exact Hd | lia].
Qed.
