(** The backward readers: what their register holds. *)

From Coq Require Import ZArith List Bool Lia.
From Verif Require Import Ints HtModel HtSpec HtBits HtForward.
Import ListNotations.
Local Open Scope Z_scope.

(** The bytes of a segment from byte [data] down. *)
Definition bseg (buf : list Z) (data size : Z) : list Z := rev (seg buf (data - size + 1) size).

Lemma bseg_nil : forall buf data size, size <= 0 -> bseg buf data size = [].
Proof. intros. unfold bseg. rewrite seg_nil by assumption. reflexivity. Qed.
Lemma bseg_cons : forall buf data size, Forall byte buf -> 0 < size -> 0 <= data - size + 1 -> data < Z.of_nat (length buf) ->
  exists d, byte_at buf data = Some d /\ bseg buf data size = d :: bseg buf (data - 1) (size - 1) /\ byte d.
Proof.
  intros buf data size B S L D. unfold byte_at. destruct (Z.ltb_spec data 0); [lia |].
  destruct (nth_error buf (Z.to_nat data)) as [d |] eqn:E; [| apply nth_error_None in E; lia].
  exists d. split; [reflexivity |]. split; [| rewrite Forall_forall in B; apply B, (nth_error_In _ _ E)].
  unfold bseg, seg. replace (data - 1 - (size - 1) + 1) with (data - size + 1) by lia.
  replace (Z.to_nat size) with (Datatypes.S (Z.to_nat (size - 1))) by lia.
  assert (G : nth_error (skipn (Z.to_nat (data - size + 1)) buf) (Z.to_nat (size - 1)) = Some d).
  { rewrite <- E. rewrite <- (firstn_skipn (Z.to_nat (data - size + 1)) buf) at 2. rewrite nth_error_app2 by (rewrite firstn_length; lia).
    rewrite firstn_length. f_equal. lia. }
  destruct (nth_error_split _ _ G) as (l1 & l2 & -> & Hl). rewrite <- Hl.
  rewrite !firstn_app, firstn_all. replace (Datatypes.S (length l1) - length l1)%nat with 1%nat by lia. rewrite Nat.sub_diag.
  rewrite firstn_all2 by lia. cbn [firstn]. rewrite rev_app_distr. cbn [rev app]. rewrite app_nil_r. reflexivity.
Qed.

Definition bflag (d : Z) : bool := 143 <? d.
Notation bstream := (stream stuffed bflag).
Notation bclean := (clean stuffed bflag).

Lemma land127 : forall x, Z.land x 127 = x mod 128.
Proof. intros x. change 127 with (Z.ones 7). rewrite Z.land_ones by lia. reflexivity. Qed.
Lemma land7 : forall x, Z.land x 7 = x mod 8.
Proof. intros x. change 7 with (Z.ones 3). rewrite Z.land_ones by lia. reflexivity. Qed.
Lemma stuffed_eq : forall u d, stuffed u d = u && (d mod 128 =? 127).
Proof. intros. unfold stuffed. rewrite land127. reflexivity. Qed.
Lemma bstream_eq : forall l u, bstream u l = bwd_bits u l.
Proof. induction l as [| d l IH]; intros u; cbn [stream bwd_bits]; [reflexivity |]. rewrite IH, stuffed_eq. reflexivity. Qed.
Lemma stuffed_lane : forall u v i, 0 <= i -> stuffed u (Z.shiftr v i) = stuffed u (lane v i).
Proof. intros u v i I. unfold stuffed, lane. rewrite <- Z.land_assoc. reflexivity. Qed.

Definition bsrc (buf : list Z) (data size : Z) (rest : list Z) : Prop :=
  (0 < size -> 0 <= data - size + 1 /\ data < Z.of_nat (length buf)) /\ exists N, rest = bseg buf data size ++ repeat 0 N.
Definition bholds (buf : list Z) (v : rev_st) (rest : list Z) (S : list bool) : Prop :=
  bsrc buf (v_data v) (v_size v) rest /\ holds stuffed bflag (v_tmp v) (v_bits v) (v_unstuff v) rest S /\ bclean (v_unstuff v) rest.

Lemma zero_byte : byte 0.
Proof. unfold byte. lia. Qed.
Lemma bytes_down : forall a b c, byte a -> byte b -> byte c ->
  Z.lor 0 (shl32 a 24) = of4 0 0 0 a /\ Z.lor (of4 0 0 0 a) (shl32 b 16) = of4 0 0 b a /\ Z.lor (of4 0 0 b a) (shl32 c 8) = of4 0 c b a.
Proof.
  intros a b c A B C. rewrite !shl32_byte by (assumption || lia). unfold of4. rewrite ?Z.shiftl_0_l, !Z.lor_0_l.
  split; [reflexivity |]. split; [apply Z.lor_comm |]. rewrite (Z.lor_comm _ (Z.shiftl c 8)). reflexivity.
Qed.
Lemma rev_val_ok : forall buf v rest, Forall byte buf -> bsrc buf (v_data v) (v_size v) rest -> (4 <= length rest)%nat ->
  exists a b c d data size rest', rest = a :: b :: c :: d :: rest' /\ byte a /\ byte b /\ byte c /\ byte d /\
    rev_val buf v = Some (of4 d c b a, data, size) /\ bsrc buf data size rest'.
Proof.
  intros buf v rest B (R & N & E) L. unfold rev_val. pose proof zero_byte as ZB.
  destruct (Z.ltb_spec 3 (v_size v)) as [K | K].
  - specialize (R ltac:(lia)). destruct R as (R1 & R2).
    destruct (bseg_cons buf (v_data v) (v_size v) B ltac:(lia) ltac:(lia) ltac:(lia)) as (a & A1 & A2 & A3).
    destruct (bseg_cons buf (v_data v - 1) (v_size v - 1) B ltac:(lia) ltac:(lia) ltac:(lia)) as (b & B1 & B2 & B3).
    destruct (bseg_cons buf (v_data v - 1 - 1) (v_size v - 1 - 1) B ltac:(lia) ltac:(lia) ltac:(lia)) as (c & C1 & C2 & C3).
    destruct (bseg_cons buf (v_data v - 1 - 1 - 1) (v_size v - 1 - 1 - 1) B ltac:(lia) ltac:(lia) ltac:(lia)) as (d & D1 & D2 & D3).
    rewrite A2, B2, C2, D2 in E. cbn [app] in E.
    replace (v_data v - 1 - 1 - 1 - 1) with (v_data v - 4) in E by lia. replace (v_size v - 1 - 1 - 1 - 1) with (v_size v - 4) in E by lia.
    replace (v_data v - 1 - 1 - 1) with (v_data v - 3) in D1 by lia. replace (v_data v - 1 - 1) with (v_data v - 3 + 1) in C1 by lia.
    replace (v_data v - 1) with (v_data v - 3 + 2) in B1 by lia. replace (v_data v) with (v_data v - 3 + 3) in A1 by lia.
    exists a, b, c, d, (v_data v - 4), (v_size v - 4). eexists. split; [exact E |]. do 4 (split; [assumption |]).
    split. { unfold read_le_uint32. rewrite A1, B1, C1, D1. reflexivity. }
    split; [lia |]. exists N. reflexivity.
  - destruct (Z.ltb_spec 0 (v_size v)) as [K2 | K2].
    + specialize (R ltac:(lia)). destruct R as (R1 & R2).
      assert (Fin : forall n, bsrc buf (v_data v - v_size v) 0 (repeat 0 n)).
      { intros n. split; [lia |]. exists n. rewrite bseg_nil by lia. reflexivity. }
      destruct (bseg_cons buf (v_data v) (v_size v) B ltac:(lia) ltac:(lia) ltac:(lia)) as (a & A1 & A2 & A3). rewrite A2 in E.
      destruct (Z.eq_dec (v_size v) 1) as [S1 | S1].
      { rewrite bseg_nil in E by lia. cbn [app] in E. subst rest. cbn [length] in L. rewrite repeat_length in L.
        do 3 (destruct N as [| N]; [lia |]). exists a, 0, 0, 0, (v_data v - v_size v), 0. eexists.
        split; [reflexivity |]. do 4 (split; [assumption |]). split; [| apply Fin].
        rewrite S1. change (Z.to_nat 1) with 1%nat. cbn [put_down]. rewrite A1.
        rewrite (proj1 (bytes_down a 0 0 A3 ZB ZB)). reflexivity. }
      destruct (bseg_cons buf (v_data v - 1) (v_size v - 1) B ltac:(lia) ltac:(lia) ltac:(lia)) as (b & B1 & B2 & B3). rewrite B2 in E.
      destruct (Z.eq_dec (v_size v) 2) as [S2 | S2].
      { rewrite bseg_nil in E by lia. cbn [app] in E. subst rest. cbn [length] in L. rewrite repeat_length in L.
        do 2 (destruct N as [| N]; [lia |]). exists a, b, 0, 0, (v_data v - v_size v), 0. eexists.
        split; [reflexivity |]. do 4 (split; [assumption |]). split; [| apply Fin].
        rewrite S2. change (Z.to_nat 2) with 2%nat. cbn [put_down]. rewrite A1, B1. change (24 - 8) with 16.
        destruct (bytes_down a b 0 A3 B3 ZB) as (Q1 & Q2 & _). rewrite Q1, Q2. reflexivity. }
      assert (S3 : v_size v = 3) by lia.
      destruct (bseg_cons buf (v_data v - 1 - 1) (v_size v - 1 - 1) B ltac:(lia) ltac:(lia) ltac:(lia)) as (c & C1 & C2 & C3). rewrite C2 in E.
      rewrite bseg_nil in E by lia. cbn [app] in E. subst rest. cbn [length] in L. rewrite repeat_length in L.
      destruct N as [| N]; [lia |]. exists a, b, c, 0, (v_data v - v_size v), 0. eexists.
      split; [reflexivity |]. do 4 (split; [assumption |]). split; [| apply Fin].
      rewrite S3. change (Z.to_nat 3) with 3%nat. cbn [put_down]. rewrite A1, B1, C1. change (24 - 8) with 16. change (16 - 8) with 8.
      destruct (bytes_down a b c A3 B3 C3) as (Q1 & Q2 & Q3). rewrite Q1, Q2, Q3. reflexivity.
    + rewrite bseg_nil in E by lia. cbn [app] in E. subst rest. rewrite repeat_length in L. do 4 (destruct N as [| N]; [lia |]).
      exists 0, 0, 0, 0, (v_data v), (v_size v). eexists. split; [reflexivity |]. do 4 (split; [assumption |]).
      split; [reflexivity |]. split; [lia |]. exists N. rewrite bseg_nil by lia. reflexivity.
Qed.

Lemma rev_read_ok : forall buf v rest S, Forall byte buf -> bholds buf v rest S -> (4 <= length rest)%nat -> v_bits v <= 32 ->
  exists v' rest', rev_read buf v = Some v' /\ bholds buf v' rest' S /\ length rest = (4 + length rest')%nat /\ v_bits v + 28 <= v_bits v' <= v_bits v + 32.
Proof.
  intros buf v rest S B (Sr & H & C) L Bi. pose proof (holds_bits _ _ _ _ _ _ _ H) as Bp.
  destruct (rev_val_ok buf v rest B Sr L) as (a & b & c & d & data & size & rest' & E & Ba & Bb & Bc & Bd & V & Sr').
  unfold rev_read. destruct (Z.ltb_spec 32 (v_bits v)); [lia |]. rewrite V.
  replace (stuffed (143 <? lane (of4 d c b a) 8) (of4 d c b a)) with (stuffed (143 <? lane (of4 d c b a) 8) (Z.shiftr (of4 d c b a) 0)) by reflexivity.
  rewrite !stuffed_lane by lia.
  destruct (lanes d c b a Bd Bc Bb Ba) as (L0 & L8 & L16 & L24 & L24'). rewrite L0, L8, L16, L24, L24'. subst rest.
  pose proof (push4 stuffed bflag (v_tmp v) (v_bits v) (v_unstuff v) a b c d rest' S Ba Bb Bc Bd ltac:(lia) H C) as P. cbn zeta in P.
  eexists. exists rest'. split; [reflexivity |]. split.
  - split; [exact Sr' |]. split; [exact P |]. exact (proj2 (proj2 (proj2 (proj2 C)))).
  - split; [reflexivity |]. cbn [v_bits]. pose proof (one_range (stuffed (v_unstuff v) a)). pose proof (one_range (stuffed (143 <? a) b)).
    pose proof (one_range (stuffed (143 <? b) c)). pose proof (one_range (stuffed (143 <? c) d)). rewrite u32_id by lia. lia.
Qed.

(** One byte of [rev_start] and [mrp_start]. *)
Lemma rev_byte : forall v d rest S, byte d -> v_bits v <= 56 -> holds stuffed bflag (v_tmp v) (v_bits v) (v_unstuff v) (d :: rest) S -> bclean (v_unstuff v) (d :: rest) ->
  holds stuffed bflag (Z.lor (v_tmp v) (shl64 d (v_bits v))) (u32 (v_bits v + (8 - one (stuffed (v_unstuff v) d)))) (143 <? d) rest S /\
  v_bits v <= u32 (v_bits v + (8 - one (stuffed (v_unstuff v) d))) <= v_bits v + 8.
Proof.
  intros v d rest S D Bi H C. pose proof (holds_bits _ _ _ _ _ _ _ H) as Bp. pose proof (one_range (stuffed (v_unstuff v) d)) as R.
  rewrite shl64_byte by (assumption || lia). rewrite u32_id by lia. split; [exact (push stuffed bflag _ _ _ _ _ _ D H C) | lia].
Qed.
Lemma rev_start_ok : forall buf n v sz rest S, Forall byte buf -> bsrc buf (v_data v) sz rest -> Z.of_nat n <= sz ->
  holds stuffed bflag (v_tmp v) (v_bits v) (v_unstuff v) rest S -> bclean (v_unstuff v) rest -> v_bits v + 8 * Z.of_nat n <= 40 ->
  exists v' rest', rev_start buf n v = Some v' /\ bsrc buf (v_data v') (sz - Z.of_nat n) rest' /\ v_size v' = v_size v /\
    holds stuffed bflag (v_tmp v') (v_bits v') (v_unstuff v') rest' S /\ bclean (v_unstuff v') rest' /\ length rest = (n + length rest')%nat /\ v_bits v' <= v_bits v + 8 * Z.of_nat n.
Proof.
  intros buf n. induction n as [| n IH]; intros v sz rest S B Sr Sz H C Bi.
  { exists v, rest. rewrite Z.sub_0_r. split; [reflexivity |]. split; [exact Sr |]. split; [reflexivity |]. split; [exact H |]. split; [exact C |]. split; [reflexivity | lia]. }
  destruct Sr as (R & N & E). specialize (R ltac:(lia)). cbn [rev_start]. pose proof (holds_bits _ _ _ _ _ _ _ H) as Bp.
  destruct (bseg_cons buf (v_data v) sz B ltac:(lia) ltac:(lia) ltac:(lia)) as (d & D1 & D2 & D3). rewrite D1. rewrite D2 in E. cbn [app] in E. subst rest.
  destruct (rev_byte v d _ S D3 ltac:(lia) H C) as (P & Q).
  destruct (IH (mkRev (v_data v - 1) (Z.lor (v_tmp v) (shl64 d (v_bits v))) (u32 (v_bits v + (8 - one (stuffed (v_unstuff v) d)))) (v_size v) (143 <? d)) (sz - 1) (bseg buf (v_data v - 1) (sz - 1) ++ repeat 0 N) S B) as (v' & r' & I1 & I2 & I3 & I4 & I5 & I6 & I7).
  - cbn [v_data]. split; [lia |]. exists N. reflexivity.
  - lia.
  - exact P.
  - exact (proj2 C).
  - cbn [v_bits]. lia.
  - exists v', r'. split; [exact I1 |]. replace (sz - Z.of_nat (Datatypes.S n)) with (sz - 1 - Z.of_nat n) by lia. split; [exact I2 |]. split; [exact I3 |].
    split; [exact I4 |]. split; [exact I5 |]. cbn [v_bits] in I7. split; [cbn [length]; lia | lia].
Qed.
Lemma mrp_start_ok : forall buf n v rest S, Forall byte buf -> bholds buf v rest S -> (n <= length rest)%nat -> v_bits v + 8 * Z.of_nat n <= 32 ->
  exists v' rest', mrp_start buf n v = Some v' /\ bholds buf v' rest' S /\ length rest = (n + length rest')%nat /\ v_bits v' <= v_bits v + 8 * Z.of_nat n.
Proof.
  intros buf n. induction n as [| n IH]; intros v rest S B H L Bi.
  { exists v, rest. split; [reflexivity |]. split; [exact H |]. split; [reflexivity | lia]. }
  destruct H as ((R & N & E) & H & C). cbn [mrp_start]. pose proof (holds_bits _ _ _ _ _ _ _ H) as Bp.
  assert (Step : forall d data rest', byte d -> rest = d :: rest' -> bsrc buf data (v_size v - 1) rest' ->
    exists v' rest', mrp_start buf n (mkRev data (Z.lor (v_tmp v) (shl64 d (v_bits v))) (u32 (v_bits v + (8 - one (stuffed (v_unstuff v) d)))) (v_size v - 1) (143 <? d)) = Some v' /\
      bholds buf v' rest' S /\ length rest = (Datatypes.S n + length rest')%nat /\ v_bits v' <= v_bits v + 8 * Z.of_nat (Datatypes.S n)).
  { intros d data rest' Bd -> Sr. destruct (rev_byte v d _ S Bd ltac:(lia) H C) as (P & Q). cbn [length] in L.
    destruct (IH (mkRev data (Z.lor (v_tmp v) (shl64 d (v_bits v))) (u32 (v_bits v + (8 - one (stuffed (v_unstuff v) d)))) (v_size v - 1) (143 <? d)) rest' S B) as (v' & r' & I1 & I2 & I3 & I4).
    - split; [exact Sr |]. split; [exact P |]. exact (proj2 C).
    - lia.
    - cbn [v_bits]. lia.
    - exists v', r'. split; [exact I1 |]. split; [exact I2 |]. cbn [v_bits] in I4. split; [cbn [length]; lia | lia]. }
  destruct (Z.ltb_spec 0 (v_size v)) as [K | K].
  - specialize (R K). destruct (bseg_cons buf (v_data v) (v_size v) B K ltac:(lia) ltac:(lia)) as (d & D1 & D2 & D3). rewrite D1. rewrite D2 in E.
    apply (Step d _ _ D3 E). split; [lia |]. exists N. reflexivity.
  - rewrite bseg_nil in E by lia. cbn [app] in E. subst rest. rewrite repeat_length in L. destruct N as [| N]; [lia |].
    apply (Step 0 _ (repeat 0 N) zero_byte eq_refl). split; [lia |]. exists N. rewrite bseg_nil by lia. reflexivity.
Qed.

Lemma rev_fetch_ok : forall buf v rest S, Forall byte buf -> bholds buf v rest S -> (8 <= length rest)%nat ->
  exists v' rest', rev_fetch buf v = Some (number (firstn 32 S), v') /\ bholds buf v' rest' S /\ (length rest <= 8 + length rest')%nat /\ 32 <= v_bits v'.
Proof.
  intros buf v rest S B H L. unfold rev_fetch.
  assert (Fin : forall v', (exists rest', bholds buf v' rest' S /\ (length rest <= 8 + length rest')%nat /\ 32 <= v_bits v') ->
    exists v'' rest', Some (u32 (v_tmp v'), v') = Some (number (firstn 32 S), v'') /\ bholds buf v'' rest' S /\ (length rest <= 8 + length rest')%nat /\ 32 <= v_bits v'').
  { intros v' (rest' & H' & L' & B'). exists v', rest'. split; [| auto]. unfold u32. destruct H' as (_ & H' & _).
    rewrite (head _ _ _ _ _ _ _ 32 H') by lia. reflexivity. }
  destruct (Z.ltb_spec (v_bits v) 32) as [K | K].
  - destruct (rev_read_ok buf v rest S B H ltac:(lia) ltac:(lia)) as (f1 & r1 & E1 & H1 & L1 & B1). rewrite E1.
    destruct (Z.ltb_spec (v_bits f1) 32) as [K1 | K1].
    + destruct (rev_read_ok buf f1 r1 S B H1 ltac:(lia) ltac:(lia)) as (f2 & r2 & E2 & H2 & L2 & B2). rewrite E2. apply Fin. exists r2.
      destruct H as (_ & H & _). pose proof (holds_bits _ _ _ _ _ _ _ H). split; [exact H2 |]. split; lia.
    + apply Fin. exists r1. split; [exact H1 |]. split; lia.
  - apply Fin. exists rest. split; [exact H |]. split; lia.
Qed.
Lemma rev_advance_ok : forall buf v rest S n k, bholds buf v rest S -> 0 <= n -> 0 <= k <= 32 -> n + k <= v_bits v ->
  exists w v', rev_advance v n = Some (w, v') /\ bholds buf v' rest (skipn (Z.to_nat n) S) /\ v_bits v' = v_bits v - n /\ w mod 2 ^ k = number (firstn (Z.to_nat k) (skipn (Z.to_nat n) S)).
Proof.
  intros buf v rest S n k (Sr & H & C) N K Le. unfold rev_advance. destruct (Z.ltb_spec (v_bits v) n); [lia |]. eexists. eexists. split; [reflexivity |].
  pose proof (take _ _ _ _ _ _ _ n H ltac:(lia)) as T.
  split; [split; [exact Sr |]; split; [exact T | exact C] |]. split; [reflexivity |]. cbn [v_tmp]. unfold u32.
  rewrite <- (head _ _ _ _ _ _ _ k T) by lia. replace 32 with (k + (32 - k)) by lia. rewrite Z.pow_add_r by lia.
  rewrite Z.rem_mul_r by (apply Z.pow_nonzero || apply Z.pow_pos_nonneg; lia). rewrite Z.mul_comm, Z.mod_add by (apply Z.pow_nonzero; lia). apply Z.mod_mod. apply Z.pow_nonzero; lia.
Qed.

Lemma rev_init_mrp_ok : forall base buf lcup len2 N, Forall byte buf -> 0 <= lcup -> 0 <= len2 -> lcup + len2 <= Z.of_nat (length buf) -> (8 <= N)%nat ->
  bclean true (bseg buf (lcup + len2 - 1) len2 ++ repeat 0 N) ->
  exists v rest, rev_init_mrp base buf lcup len2 = Some v /\ bholds buf v rest (bwd_bits true (bseg buf (lcup + len2 - 1) len2 ++ repeat 0 N)) /\ (N <= 8 + length rest)%nat.
Proof.
  intros base buf lcup len2 N B L0 L2 R HN C. unfold rev_init_mrp.
  pose proof (Z.mod_pos_bound (base + (lcup + len2 - 1)) 4 ltac:(lia)) as M. set (n := Z.to_nat (1 + (base + (lcup + len2 - 1)) mod 4)).
  assert (Hn : (n <= 4)%nat) by (unfold n; lia). clearbody n.
  set (rest := bseg buf (lcup + len2 - 1) len2 ++ repeat 0 N) in *. assert (Lr : (N <= length rest)%nat) by (unfold rest; rewrite app_length, repeat_length; lia).
  destruct (mrp_start_ok buf n (mkRev (lcup + len2 - 1) 0 0 len2 true) rest (bwd_bits true rest) B) as (v & r & E & H & L & Bi).
  - split. { cbn [v_data v_size]. split; [lia |]. exists N. reflexivity. }
    split; [| exact C]. rewrite <- bstream_eq. apply holds_start.
  - lia.
  - cbn [v_bits]. lia.
  - rewrite E. cbn [v_bits] in Bi. destruct (rev_read_ok buf v r _ B H ltac:(lia) ltac:(lia)) as (v' & r' & E' & H' & L' & _). exists v', r'. split; [exact E' |]. split; [exact H' | lia].
Qed.

Lemma half : forall d, byte d -> Z.shiftr d 4 = d / 16 /\ 0 <= d / 16 < 16 /\ Z.lor d 15 = 16 * (d / 16) + 15.
Proof.
  intros d D. unfold byte in D. split; [rewrite Z.shiftr_div_pow2 by lia; reflexivity |]. pose proof (Z.div_mod d 16 ltac:(lia)) as M. pose proof (Z.mod_pos_bound d 16 ltac:(lia)) as R.
  split; [lia |]. set (h := d / 16) in *. set (r := d mod 16) in *. clearbody h r. subst d.
  assert (P : Z.lor (16 * h + r) 15 = Z.lor (Z.shiftl h 4) 15).
  { replace (16 * h + r) with (Z.lor (Z.shiftl h 4) r).
    - rewrite <- Z.lor_assoc. f_equal. apply Z.bits_inj'. intros j J. rewrite Z.lor_spec. change 15 with (Z.ones 4). rewrite Z.testbit_ones_nonneg by lia.
      destruct (Z.ltb_spec j 4); [apply orb_true_r |]. rewrite (small_high r 4) by lia. reflexivity.
    - apply Z.bits_inj'. intros j J. replace (16 * h + r) with (r + h * 2 ^ 4) by lia. rewrite Z.lor_spec, Z.shiftl_spec by lia.
      destruct (Z.lt_ge_cases j 4) as [K | K].
      + rewrite (Z.testbit_neg_r h) by lia. rewrite <- (Z.mod_pow2_bits_low (r + h * 2 ^ 4) 4) by lia. rewrite Z.mod_add, Z.mod_small by lia. reflexivity.
      + rewrite (small_high r 4) by lia. rewrite orb_false_r. rewrite <- (Z.sub_add 4 j) at 2. rewrite <- Z.div_pow2_bits by lia.
        rewrite Z.div_add by lia. rewrite Z.div_small by lia. reflexivity. }
  rewrite P. apply Z.bits_inj'. intros j J. replace (16 * h + 15) with (15 + h * 2 ^ 4) by lia. rewrite Z.lor_spec, Z.shiftl_spec by lia.
  destruct (Z.lt_ge_cases j 4) as [K | K].
  - rewrite (Z.testbit_neg_r h) by lia. rewrite <- (Z.mod_pow2_bits_low (15 + h * 2 ^ 4) 4) by lia. rewrite Z.mod_add, Z.mod_small by lia. reflexivity.
  - rewrite (small_high 15 4) by lia. rewrite orb_false_r. rewrite <- (Z.sub_add 4 j) at 2. rewrite <- Z.div_pow2_bits by lia.
    rewrite Z.div_add by lia. rewrite Z.div_small by lia. reflexivity.
Qed.

Lemma rev_init_ok : forall base buf lcup scup N, Forall byte buf -> 2 <= scup <= lcup -> lcup <= Z.of_nat (length buf) -> (8 <= N)%nat ->
  (exists d, byte_at buf (lcup - 2) = Some d /\ d < 240 /\ bclean (143 <? 16 * (d / 16) + 15) (bseg buf (lcup - 3) (scup - 2) ++ repeat 0 N)) ->
  exists v rest, rev_init base buf lcup scup = Some v /\ bholds buf v rest (vlc_bits (bseg buf (lcup - 2) (scup - 1) ++ repeat 0 N)) /\ (N <= 8 + length rest)%nat.
Proof.
  intros base buf lcup scup N B Sc R HN (d & Ed & Hd & C). unfold rev_init. rewrite Ed.
  destruct (bseg_cons buf (lcup - 2) (scup - 1) B ltac:(lia) ltac:(lia) ltac:(lia)) as (d' & Ed' & Eb & Bd). rewrite Ed in Ed'. injection Ed' as <-.
  destruct (half d Bd) as (H1 & H2 & H3). rewrite H1, H3. rewrite Eb. replace (lcup - 2 - 1) with (lcup - 3) by lia. replace (scup - 1 - 1) with (scup - 2) by lia.
  cbn [v_data v_size app vlc_bits]. pose proof (Z.mod_pos_bound (base + (lcup - 3)) 4 ltac:(lia)) as M.
  set (num := 1 + (base + (lcup - 3)) mod 4). set (tnum := if num <? scup - 2 then num else scup - 2).
  assert (Ht : 0 <= tnum <= 4 /\ tnum <= scup - 2) by (unfold tnum, num; destruct (Z.ltb_spec (1 + (base + (lcup - 3)) mod 4) (scup - 2)); lia). clearbody tnum. clear num.
  assert (Hh : d / 16 < 15) by (apply Z.div_lt_upper_bound; lia). set (h := d / 16) in *. clearbody h.
  rewrite land7. set (u := 143 <? 16 * h + 15) in *. clearbody u.
  set (rest := bseg buf (lcup - 3) (scup - 2) ++ repeat 0 N) in *. assert (Lr : (N <= length rest)%nat) by (unfold rest; rewrite app_length, repeat_length; lia).
  set (S := low_bits (if h mod 8 =? 7 then 3 else 4) h ++ bwd_bits u rest).
  pose proof (one_range (h mod 8 =? 7)) as O.
  assert (Hs : holds stuffed bflag h (4 - one (h mod 8 =? 7)) u rest S).
  { split; [lia |]. exists (low_bits (if h mod 8 =? 7 then 3 else 4) h). rewrite bstream_eq. split; [reflexivity |]. rewrite low_bits_length.
    split; [destruct (h mod 8 =? 7); reflexivity |]. split.
    - intros j J. rewrite low_bits_nth by (destruct (h mod 8 =? 7); cbn [one] in J; lia). f_equal. lia.
    - intros j J X. exfalso. assert (J4 : 3 <= j) by lia. destruct (Z.eq_dec j 3) as [-> | N3].
      + destruct (Z.eqb_spec (h mod 8) 7) as [E7 | E7]; cbn [one] in J; [| lia].
        assert (H7 : h = 7) by (pose proof (Z.div_mod h 8 ltac:(lia)); assert (h / 8 < 2) by (apply Z.div_lt_upper_bound; lia); assert (0 <= h / 8) by (apply Z.div_pos; lia);
          assert (h / 8 = 0 \/ h / 8 = 1) as [Q | Q] by lia; lia). rewrite H7 in X. discriminate X.
      + rewrite (small_high h 4) in X by lia. discriminate. }
  destruct (rev_start_ok buf (Z.to_nat tnum) (mkRev (lcup - 3) h (4 - one (h mod 8 =? 7)) (scup - 2) u) (scup - 2) rest S B) as (v & r & E & Sr & Sv & H & C' & L & Bi).
  - cbn [v_data]. split; [lia |]. exists N. reflexivity.
  - lia.
  - exact Hs.
  - exact C.
  - cbn [v_bits]. lia.
  - rewrite E. cbn [v_size] in Sv. rewrite Sv. rewrite Z2Nat.id in Sr by lia. cbn [v_bits] in Bi.
    destruct (Z.le_gt_cases (v_bits v) 32) as [K | K].
    + destruct (rev_read_ok buf (mkRev (v_data v) (v_tmp v) (v_bits v) (scup - 2 - tnum) (v_unstuff v)) r S B) as (v' & r' & E' & H' & L' & _).
      * split; [exact Sr |]. split; [exact H | exact C'].
      * lia.
      * exact K.
      * exists v', r'. split; [exact E' |]. split; [exact H' | lia].
    + exists (mkRev (v_data v) (v_tmp v) (v_bits v) (scup - 2 - tnum) (v_unstuff v)), r. unfold rev_read. cbn [v_bits]. destruct (Z.ltb_spec 32 (v_bits v)); [| lia].
      split; [reflexivity |]. split; [split; [exact Sr |]; split; [exact H | exact C'] | lia].
Qed.
