(** The forward reader: what its register holds. *)

From Coq Require Import ZArith List Bool Lia.
From Verif Require Import Ints HtModel HtSpec HtBits.
Import ListNotations.
Local Open Scope Z_scope.

(** The bytes of a segment. *)
Definition seg (buf : list Z) (data size : Z) : list Z := firstn (Z.to_nat size) (skipn (Z.to_nat data) buf).

Lemma seg_nil : forall buf data size, size <= 0 -> seg buf data size = [].
Proof. intros buf data size H. unfold seg. replace (Z.to_nat size) with 0%nat by lia. reflexivity. Qed.
Lemma seg_cons : forall buf data size, Forall byte buf -> 0 <= data -> 0 < size -> data + size <= Z.of_nat (length buf) ->
  exists d, byte_at buf data = Some d /\ seg buf data size = d :: seg buf (data + 1) (size - 1) /\ byte d.
Proof.
  intros buf data size B D S L. unfold byte_at. destruct (Z.ltb_spec data 0); [lia |].
  destruct (nth_error buf (Z.to_nat data)) as [d |] eqn:E; [| apply nth_error_None in E; lia].
  exists d. split; [reflexivity |]. split; [| rewrite Forall_forall in B; apply B, (nth_error_In _ _ E)].
  unfold seg. replace (Z.to_nat size) with (Datatypes.S (Z.to_nat (size - 1))) by lia.
  destruct (nth_error_split _ _ E) as (l1 & l2 & -> & Hl). rewrite <- Hl. replace (Z.to_nat (data + 1)) with (length (l1 ++ [d])) by (rewrite app_length; cbn [length]; lia).
  assert (E1 : skipn (length l1) (l1 ++ d :: l2) = d :: l2) by (rewrite skipn_app, skipn_all, Nat.sub_diag; reflexivity).
  assert (E2 : skipn (length (l1 ++ [d])) (l1 ++ d :: l2) = l2).
  { replace (l1 ++ d :: l2) with ((l1 ++ [d]) ++ l2) by (rewrite <- app_assoc; reflexivity). rewrite skipn_app, skipn_all, Nat.sub_diag. reflexivity. }
  rewrite E1, E2. reflexivity.
Qed.

Definition fdrop (u : bool) (_ : Z) : bool := u.
Definition fflag (d : Z) : bool := d =? 255.
Notation fstream := (stream fdrop fflag).
Notation fclean := (clean fdrop fflag).

Lemma fstream_eq : forall l u, fstream u l = fwd_bits u l.
Proof. induction l as [| d l IH]; intros u; cbn [stream fwd_bits]; [reflexivity |]. rewrite IH. reflexivity. Qed.

(** The reader [f] still has to read [rest]. *)
Definition fsrc (buf : list Z) (f : frwd) (rest : list Z) : Prop :=
  (f_X f = 0 \/ f_X f = 255) /\ 0 <= f_data f /\ (0 < f_size f -> f_data f + f_size f <= Z.of_nat (length buf)) /\
  exists N, rest = seg buf (f_data f) (f_size f) ++ repeat (f_X f) N.

Definition fholds (buf : list Z) (f : frwd) (rest : list Z) (S : list bool) : Prop :=
  fsrc buf f rest /\ holds fdrop fflag (f_tmp f) (f_bits f) (f_unstuff f) rest S /\ fclean (f_unstuff f) rest.

Lemma fill_byte : forall x, x = 0 \/ x = 255 -> byte x.
Proof. intros x [-> | ->]; unfold byte; lia. Qed.
Lemma fill_eq : forall x, x = 0 \/ x = 255 -> (if negb (x =? 0) then 4294967295 else 0) = of4 x x x x.
Proof. intros x [-> | ->]; reflexivity. Qed.

Lemma frwd_val_ok : forall buf f rest, Forall byte buf -> fsrc buf f rest -> (4 <= length rest)%nat ->
  exists a b c d data size rest', rest = a :: b :: c :: d :: rest' /\ byte a /\ byte b /\ byte c /\ byte d /\
    frwd_val buf f = Some (of4 a b c d, data, size) /\
    forall tmp bits u, fsrc buf (mkFrwd data tmp bits u size (f_X f)) rest'.
Proof.
  intros buf f rest B (X & D & R & N & E) L. unfold frwd_val. rewrite (fill_eq _ X). pose proof (fill_byte _ X) as XB.
  destruct (Z.ltb_spec 3 (f_size f)) as [K | K].
  - specialize (R ltac:(lia)).
    destruct (seg_cons buf (f_data f) (f_size f) B D ltac:(lia) R) as (a & A1 & A2 & A3).
    destruct (seg_cons buf (f_data f + 1) (f_size f - 1) B ltac:(lia) ltac:(lia) ltac:(lia)) as (b & B1 & B2 & B3).
    destruct (seg_cons buf (f_data f + 1 + 1) (f_size f - 1 - 1) B ltac:(lia) ltac:(lia) ltac:(lia)) as (c & C1 & C2 & C3).
    destruct (seg_cons buf (f_data f + 1 + 1 + 1) (f_size f - 1 - 1 - 1) B ltac:(lia) ltac:(lia) ltac:(lia)) as (d & D1 & D2 & D3).
    rewrite A2, B2, C2, D2 in E. cbn [app] in E.
    replace (f_data f + 1 + 1 + 1 + 1) with (f_data f + 4) in E by lia. replace (f_size f - 1 - 1 - 1 - 1) with (f_size f - 4) in E by lia.
    replace (f_data f + 1 + 1 + 1) with (f_data f + 3) in D1 by lia. replace (f_data f + 1 + 1) with (f_data f + 2) in C1 by lia.
    exists a, b, c, d, (f_data f + 4), (f_size f - 4). eexists. split; [exact E |]. do 4 (split; [assumption |]).
    split. { unfold read_le_uint32. rewrite A1, B1, C1, D1. reflexivity. }
    intros tmp bits u. split; [exact X |]. cbn [f_X f_data f_size]. split; [lia |]. split; [lia |]. exists N. reflexivity.
  - destruct (Z.ltb_spec 0 (f_size f)) as [K2 | K2].
    + specialize (R ltac:(lia)).
      assert (Fin : forall n tmp bits u, fsrc buf (mkFrwd (f_data f + f_size f) tmp bits u 0 (f_X f)) (repeat (f_X f) n)).
      { intros n tmp bits u. split; [exact X |]. cbn [f_X f_data f_size]. split; [lia |]. split; [lia |]. exists n. rewrite seg_nil by lia. reflexivity. }
      destruct (seg_cons buf (f_data f) (f_size f) B D ltac:(lia) R) as (a & A1 & A2 & A3). rewrite A2 in E.
      destruct (Z.eq_dec (f_size f) 1) as [S1 | S1].
      { rewrite seg_nil in E by lia. cbn [app] in E. subst rest. cbn [length] in L. rewrite repeat_length in L.
        do 3 (destruct N as [| N]; [lia |]). exists a, (f_X f), (f_X f), (f_X f), (f_data f + f_size f), 0. eexists.
        split; [reflexivity |]. do 4 (split; [assumption |]). split; [| intros; apply Fin].
        rewrite S1. change (Z.to_nat 1) with 1%nat. cbn [put_up]. rewrite A1. rewrite (proj1 (puts _ _ _ _ a XB XB XB XB A3)). reflexivity. }
      destruct (seg_cons buf (f_data f + 1) (f_size f - 1) B ltac:(lia) ltac:(lia) ltac:(lia)) as (b & B1 & B2 & B3). rewrite B2 in E.
      destruct (Z.eq_dec (f_size f) 2) as [S2 | S2].
      { rewrite seg_nil in E by lia. cbn [app] in E. subst rest. cbn [length] in L. rewrite repeat_length in L.
        do 2 (destruct N as [| N]; [lia |]). exists a, b, (f_X f), (f_X f), (f_data f + f_size f), 0. eexists.
        split; [reflexivity |]. do 4 (split; [assumption |]). split; [| intros; apply Fin].
        rewrite S2. change (Z.to_nat 2) with 2%nat. cbn [put_up]. change (0 + 8) with 8. rewrite A1, B1. rewrite (proj1 (puts _ _ _ _ a XB XB XB XB A3)).
        rewrite (proj1 (proj2 (puts a _ _ _ b A3 XB XB XB B3))). reflexivity. }
      assert (S3 : f_size f = 3) by lia.
      destruct (seg_cons buf (f_data f + 1 + 1) (f_size f - 1 - 1) B ltac:(lia) ltac:(lia) ltac:(lia)) as (c & C1 & C2 & C3). rewrite C2 in E.
      rewrite seg_nil in E by lia. cbn [app] in E. subst rest. cbn [length] in L. rewrite repeat_length in L.
      destruct N as [| N]; [lia |]. exists a, b, c, (f_X f), (f_data f + f_size f), 0. eexists.
      split; [reflexivity |]. do 4 (split; [assumption |]). split; [| intros; apply Fin].
      rewrite S3. change (Z.to_nat 3) with 3%nat. cbn [put_up]. change (0 + 8) with 8. change (8 + 8) with 16. rewrite A1, B1, C1. rewrite (proj1 (puts _ _ _ _ a XB XB XB XB A3)).
      rewrite (proj1 (proj2 (puts a _ _ _ b A3 XB XB XB B3))). rewrite (proj1 (proj2 (proj2 (puts a b _ _ c A3 B3 XB XB C3)))). reflexivity.
    + rewrite seg_nil in E by lia. cbn [app] in E. subst rest. rewrite repeat_length in L. do 4 (destruct N as [| N]; [lia |]).
      exists (f_X f), (f_X f), (f_X f), (f_X f), (f_data f), (f_size f). eexists. split; [reflexivity |]. do 4 (split; [assumption |]).
      split; [reflexivity |]. intros tmp bits u. split; [exact X |]. cbn [f_X f_data f_size]. split; [lia |]. split; [lia |]. exists N. rewrite seg_nil by lia. reflexivity.
Qed.

Lemma frwd_read_ok : forall buf f rest S, Forall byte buf -> fholds buf f rest S -> (4 <= length rest)%nat -> f_bits f <= 32 ->
  exists f' rest', frwd_read buf f = Some f' /\ fholds buf f' rest' S /\ length rest = (4 + length rest')%nat /\ f_bits f + 28 <= f_bits f' <= f_bits f + 32.
Proof.
  intros buf f rest S B (Sr & H & C) L Bi. pose proof (holds_bits _ _ _ _ _ _ _ H) as Bp.
  destruct (frwd_val_ok buf f rest B Sr L) as (a & b & c & d & data & size & rest' & E & Ba & Bb & Bc & Bd & V & Sr').
  unfold frwd_read. destruct (Z.ltb_spec 32 (f_bits f)); [lia |]. rewrite V.
  destruct (lanes a b c d Ba Bb Bc Bd) as (L0 & L8 & L16 & L24 & _). rewrite L0, L8, L16, L24. subst rest.
  pose proof (push4 fdrop fflag (f_tmp f) (f_bits f) (f_unstuff f) a b c d rest' S Ba Bb Bc Bd ltac:(lia) H C) as P. cbn zeta in P.
  eexists. exists rest'. split; [reflexivity |]. split.
  - split; [apply Sr' |]. split; [exact P |]. exact (proj2 (proj2 (proj2 (proj2 C)))).
  - split; [reflexivity |]. cbn [f_bits]. pose proof (one_range (f_unstuff f)). pose proof (one_range (a =? 255)). pose proof (one_range (b =? 255)). pose proof (one_range (c =? 255)).
    rewrite u32_id by lia. lia.
Qed.

Lemma frwd_start_ok : forall buf n f rest S, Forall byte buf -> fholds buf f rest S -> (n <= length rest)%nat -> f_bits f + 8 * Z.of_nat n <= 32 ->
  exists f' rest', frwd_start buf n f = Some f' /\ fholds buf f' rest' S /\ length rest = (n + length rest')%nat /\ f_bits f' <= f_bits f + 8 * Z.of_nat n.
Proof.
  intros buf n. induction n as [| n IH]; intros f rest S B H L Bi.
  { exists f, rest. split; [reflexivity |]. split; [exact H |]. split; [reflexivity | lia]. }
  destruct H as ((X & D & R & N & E) & H & C). cbn [frwd_start]. pose proof (holds_bits _ _ _ _ _ _ _ H) as Bp.
  pose proof (one_range (f_unstuff f)) as U.
  assert (Step : forall d data, byte d -> (exists rest', rest = d :: rest' /\ fsrc buf (mkFrwd data 0 0 false (f_size f - 1) (f_X f)) rest') ->
    exists f' rest', frwd_start buf n (mkFrwd data (Z.lor (f_tmp f) (shl64 d (f_bits f))) (u32 (f_bits f + (8 - one (f_unstuff f)))) (Z.land d 255 =? 255) (f_size f - 1) (f_X f)) = Some f' /\
      fholds buf f' rest' S /\ length rest = (Datatypes.S n + length rest')%nat /\ f_bits f' <= f_bits f + 8 * Z.of_nat (Datatypes.S n)).
  { intros d data Bd (rest' & -> & Sr). rewrite shl64_byte by (assumption || lia). rewrite u32_id by lia. rewrite land255, Z.mod_small by exact Bd.
    pose proof (push fdrop fflag _ _ _ _ _ _ Bd H C) as P. cbn [length] in L.
    destruct (IH (mkFrwd data (Z.lor (f_tmp f) (Z.shiftl d (f_bits f))) (f_bits f + (8 - one (f_unstuff f))) (d =? 255) (f_size f - 1) (f_X f)) rest' S B) as (f' & r' & I1 & I2 & I3 & I4).
    - split; [exact Sr |]. split; [exact P |]. exact (proj2 C).
    - lia.
    - cbn [f_bits]. lia.
    - exists f', r'. split; [exact I1 |]. split; [exact I2 |]. split; [cbn [length]; lia |]. cbn [f_bits] in I4. lia. }
  destruct (Z.ltb_spec 0 (f_size f)) as [K | K].
  - specialize (R K). destruct (seg_cons buf (f_data f) (f_size f) B D K R) as (d & D1 & D2 & D3). rewrite D1. apply Step; [exact D3 |].
    rewrite D2 in E. eexists. split; [exact E |]. split; [exact X |]. cbn [f_X f_data f_size]. split; [lia |]. split; [lia |]. exists N. reflexivity.
  - apply Step; [exact (fill_byte _ X) |]. rewrite seg_nil in E by lia. subst rest. cbn [app] in L. rewrite repeat_length in L. destruct N as [| N]; [lia |].
    exists (repeat (f_X f) N). split; [reflexivity |]. split; [exact X |]. cbn [f_X f_data f_size]. split; [lia |]. split; [lia |]. exists N. rewrite seg_nil by lia. reflexivity.
Qed.

Lemma frwd_fetch_ok : forall buf f rest S, Forall byte buf -> fholds buf f rest S -> (8 <= length rest)%nat ->
  exists f' rest', frwd_fetch buf f = Some (number (firstn 32 S), f') /\ fholds buf f' rest' S /\ (length rest <= 8 + length rest')%nat /\ 32 <= f_bits f'.
Proof.
  intros buf f rest S B H L. unfold frwd_fetch.
  assert (Fin : forall f', (exists rest', fholds buf f' rest' S /\ (length rest <= 8 + length rest')%nat /\ 32 <= f_bits f') ->
    exists f'' rest', Some (u32 (f_tmp f'), f') = Some (number (firstn 32 S), f'') /\ fholds buf f'' rest' S /\ (length rest <= 8 + length rest')%nat /\ 32 <= f_bits f'').
  { intros f' (rest' & H' & L' & B'). exists f', rest'. split; [| auto]. unfold u32. destruct H' as (_ & H' & _).
    rewrite (head _ _ _ _ _ _ _ 32 H') by lia. reflexivity. }
  destruct (Z.ltb_spec (f_bits f) 32) as [K | K].
  - destruct (frwd_read_ok buf f rest S B H ltac:(lia) ltac:(lia)) as (f1 & r1 & E1 & H1 & L1 & B1). rewrite E1.
    destruct (Z.ltb_spec (f_bits f1) 32) as [K1 | K1].
    + destruct (frwd_read_ok buf f1 r1 S B H1 ltac:(lia) ltac:(lia)) as (f2 & r2 & E2 & H2 & L2 & B2). rewrite E2. apply Fin. exists r2.
      destruct H as (_ & H & _). pose proof (holds_bits _ _ _ _ _ _ _ H). split; [exact H2 |]. split; lia.
    + apply Fin. exists r1. split; [exact H1 |]. split; lia.
  - apply Fin. exists rest. split; [exact H |]. split; lia.
Qed.
Lemma frwd_advance_ok : forall buf f rest S n, fholds buf f rest S -> 0 <= n <= f_bits f ->
  exists f', frwd_advance f n = Some f' /\ fholds buf f' rest (skipn (Z.to_nat n) S).
Proof.
  intros buf f rest S n (Sr & H & C) N. unfold frwd_advance. destruct (Z.ltb_spec (f_bits f) n); [lia |]. eexists. split; [reflexivity |].
  split; [exact Sr |]. split; [apply take; assumption | exact C].
Qed.
Lemma frwd_init_ok : forall base buf data size X N, Forall byte buf -> X = 0 \/ X = 255 -> 0 <= data -> 0 <= size -> data + size <= Z.of_nat (length buf) -> (8 <= N)%nat ->
  fclean false (seg buf data size ++ repeat X N) ->
  exists f rest, frwd_init base buf data size X = Some f /\ fholds buf f rest (fwd_bits false (seg buf data size ++ repeat X N)) /\ (N <= 8 + length rest)%nat.
Proof.
  intros base buf data size X N B HX D Sz R HN C. unfold frwd_init. replace ((X =? 0) || (X =? 255)) with true by (destruct HX as [-> | ->]; reflexivity).
  pose proof (Z.mod_pos_bound (base + data) 4 ltac:(lia)) as M. set (n := Z.to_nat (4 - (base + data) mod 4)).
  assert (Hn : (n <= 4)%nat) by (unfold n; lia). clearbody n.
  set (rest := seg buf data size ++ repeat X N) in *. assert (Lr : (N <= length rest)%nat) by (unfold rest; rewrite app_length, repeat_length; lia).
  destruct (frwd_start_ok buf n (mkFrwd data 0 0 false size X) rest (fwd_bits false rest) B) as (f & r & E & H & L & Bi).
  - split. { split; [exact HX |]. cbn [f_X f_data f_size]. split; [lia |]. split; [lia |]. exists N. reflexivity. }
    split; [| exact C]. rewrite <- fstream_eq. apply holds_start.
  - lia.
  - cbn [f_bits]. lia.
  - rewrite E. cbn [f_bits] in Bi. destruct (frwd_read_ok buf f r _ B H ltac:(lia) ltac:(lia)) as (f' & r' & E' & H' & L' & _). exists f', r'. split; [exact E' |]. split; [exact H' | lia].
Qed.
