(** C83: stream writes. *)

From Coq Require Import ZArith List Bool Lia.
From Verif Require Import WriterModel.
Import ListNotations.
Local Open Scope Z_scope.

(** ** The reference: a file with a position *)

(** Contents by index, length, position. *)
Record file := File { f_at : nat -> Z; f_len : nat; f_pos : nat }.
Inductive op := Write (l : list Z) | Skip (k : Z) | Seek (o : Z) | Flush.

Definition ref_op (f : file) (o : op) : file :=
  match o with
  | Write [] => f
  | Write l => File (fun i => if (f_pos f <=? i)%nat && (i <? f_pos f + length l)%nat then nth (i - f_pos f) l 0 else f_at f i)
                 (Nat.max (f_len f) (f_pos f + length l)) (f_pos f + length l)
  | Skip k => File (f_at f) (f_len f) (f_pos f + Z.to_nat k)
  | Seek o => File (f_at f) (f_len f) (Z.to_nat o)
  | Flush => f
  end.
Definition ref_run (os : list op) : file := fold_left ref_op os (File (fun _ => 0) 0 0).

Definition code_op (c : custom) (s : stream) (o : op) : out * stream :=
  match o with
  | Write l => write c l s
  | Skip k => skip c k s
  | Seek o => seek c o s
  | Flush => flush c s
  end.
(** A caller that stops at the first operation that does not succeed. *)
Fixpoint code_run (c : custom) (s : stream) (os : list op) : out * stream :=
  match os with
  | [] => (Done, s)
  | o :: os => match code_op c s o with (Done, s) => code_run c s os | (r, s) => (r, s) end
  end.

Definition holds (b : list Z) (f : file) : Prop := length b = f_len f /\ forall i, nth i b 0 = f_at f i.

(** ** Files *)

Lemma nth_put : forall b p l i,
  nth i (put b p l) 0 = if (p <=? i)%nat && (i <? p + length l)%nat then nth (i - p) l 0 else nth i b 0.
Proof.
  intros b p l i. destruct l as [| x l'].
  { cbn [put length]. destruct (Nat.leb_spec p i); destruct (Nat.ltb_spec i (p + 0)); cbn [andb]; try lia; reflexivity. }
  unfold put. set (l := x :: l'). clearbody l. clear x l'.
  assert (L1 : length (firstn p b ++ repeat 0 (p - length b)) = p) by (rewrite app_length, firstn_length, repeat_length; lia).
  rewrite app_assoc. destruct (Nat.leb_spec p i) as [H | H]; cbn [andb].
  - rewrite app_nth2 by lia. rewrite L1. destruct (Nat.ltb_spec i (p + length l)).
    + apply app_nth1. lia.
    + rewrite app_nth2 by lia. replace (i - p - length l)%nat with (i - (p + length l))%nat by lia.
      destruct (Nat.le_gt_cases (length b) i) as [G | G].
      * rewrite nth_overflow by (rewrite skipn_length; lia). symmetry. apply nth_overflow. lia.
      * rewrite <- (firstn_skipn (p + length l) b) at 2. rewrite app_nth2; rewrite firstn_length_le by lia; [reflexivity | lia].
  - rewrite app_nth1 by lia. destruct (Nat.le_gt_cases (length b) i) as [G | G].
    + rewrite (nth_overflow b) by lia. rewrite app_nth2; rewrite firstn_length_le2 || rewrite firstn_length; try lia.
      rewrite nth_repeat. reflexivity.
    + rewrite app_nth1 by (rewrite firstn_length; lia). rewrite <- (firstn_skipn p b) at 2.
      rewrite app_nth1 by (rewrite firstn_length; lia). reflexivity.
Qed.

Lemma length_put : forall b p l, length (put b p l) = match l with [] => length b | _ => Nat.max (length b) (p + length l) end.
Proof.
  intros b p [| x l]; [reflexivity |]. unfold put. rewrite !app_length, firstn_length, repeat_length, skipn_length. lia.
Qed.

Lemma put_put : forall b p l m, put (put b p l) (p + length l) m = put b p (l ++ m).
Proof.
  intros b p l m. destruct l as [| x l']; [cbn [put app length]; rewrite Nat.add_0_r; reflexivity |].
  destruct m as [| y m']; [rewrite app_nil_r; reflexivity |].
  apply (nth_ext _ _ 0 0).
  - rewrite !length_put. cbn [app length]. rewrite app_length. cbn [length]. lia.
  - intros i _. rewrite !nth_put, app_length. set (l := x :: l'). set (m := y :: m'). clearbody l m.
    destruct (Nat.leb_spec p i); destruct (Nat.ltb_spec i (p + length l)); destruct (Nat.leb_spec (p + length l) i);
      destruct (Nat.ltb_spec i (p + length l + length m)); destruct (Nat.ltb_spec i (p + (length l + length m))); cbn [andb]; try lia; try reflexivity.
    + symmetry. apply app_nth1. lia.
    + rewrite app_nth2 by lia. f_equal. lia.
Qed.

(** ** The buffer is invisible *)

(** What the destination will hold once the buffer is flushed, and where. *)
Definition sum (w : writer) : list Z := put (d_bytes (w_dest w)) (d_pos (w_dest w)) (w_buf w).
Definition at_ (w : writer) : nat := (d_pos (w_dest w) + length (w_buf w))%nat.

Lemma inner_write_spec : forall c l d r d', inner_write c l d = (r, d') ->
  match r with
  | None => d_bytes d' = d_bytes d /\ d_pos d' = d_pos d
  | Some n => d_bytes d' = put (d_bytes d) (d_pos d) (firstn n l) /\ d_pos d' = (d_pos d + length (firstn n l))%nat
  end.
Proof.
  intros c l d r d' H. unfold inner_write in H. destruct (reply c (d_turn d) (length l) <? 0); injection H as <- <-; split; reflexivity.
Qed.

Lemma flush_loop_spec : forall c fuel buf d ok buf' d', (length buf <= fuel)%nat ->
  flush_loop c fuel buf d = (ok, buf', d') ->
  put (d_bytes d') (d_pos d') buf' = put (d_bytes d) (d_pos d) buf /\
  (d_pos d' + length buf' = d_pos d + length buf)%nat /\ (ok = true -> buf' = []).
Proof.
  intros c fuel. induction fuel as [| fuel IH]; intros buf d ok buf' d' Hf H.
  { destruct buf; [| cbn in Hf; lia]. cbn in H. injection H as <- <- <-. auto. }
  destruct buf as [| x t]; [cbn in H; injection H as <- <- <-; auto |].
  set (buf := x :: t) in *. change (flush_loop c (S fuel) buf d) with
    (match inner_write c buf d with
      | (None, d) => (false, buf, d)
      | (Some O, d) => (false, buf, d)
      | (Some n, d) => flush_loop c fuel (skipn n buf) d
      end) in H.
  destruct (inner_write c buf d) as [r d1] eqn:E. pose proof (inner_write_spec _ _ _ _ _ E) as I.
  destruct r as [[| n] |]; cbn [firstn] in I.
  - injection H as <- <- <-. destruct I as [-> ->]. cbn [put length]. rewrite Nat.add_0_r. repeat split. discriminate.
  - assert (Lb : (length buf = S (length t))%nat) by reflexivity.
    apply IH in H; [| rewrite skipn_length; lia]. destruct I as [I1 I2]. change (firstn (S n) buf) with (firstn (S n) buf) in I1.
    assert (J1 : d_bytes d1 = put (d_bytes d) (d_pos d) (firstn (S n) buf)) by exact I1.
    assert (J2 : d_pos d1 = (d_pos d + length (firstn (S n) buf))%nat) by exact I2.
    destruct H as (H1 & H2 & H3). split; [| split].
    + rewrite H1, J1, J2, put_put, firstn_skipn. reflexivity.
    + rewrite H2, J2, <- Nat.add_assoc, <- app_length, firstn_skipn. reflexivity.
    + exact H3.
  - injection H as <- <- <-. destruct I as [-> ->]. repeat split. discriminate.
Qed.

Lemma flush_buf_spec : forall c w ok w', flush_buf c w = (ok, w') ->
  sum w' = sum w /\ at_ w' = at_ w /\ w_cap w' = w_cap w /\ (ok = true -> w_buf w' = []).
Proof.
  intros c w ok w' H. unfold flush_buf in H. destruct (flush_loop c (length (w_buf w)) (w_buf w) (w_dest w)) as [[o b] d] eqn:E.
  injection H as <- <-. apply flush_loop_spec in E; [| lia]. destruct E as (E1 & E2 & E3). unfold sum, at_. cbn [w_dest w_buf w_cap]. auto.
Qed.

Lemma buffer_spec : forall l w, let w' := snd (buffer l w) in sum w' = put (sum w) (at_ w) l /\ at_ w' = (at_ w + length l)%nat.
Proof. intros l w. unfold buffer, sum, at_. cbn [snd w_dest w_buf]. rewrite put_put, app_length. split; [reflexivity | lia]. Qed.

Lemma buf_write_spec : forall c l w r w', l <> [] -> buf_write c l w = (r, w') ->
  match r with
  | None => sum w' = sum w /\ at_ w' = at_ w
  | Some n => sum w' = put (sum w) (at_ w) (firstn n l) /\ at_ w' = (at_ w + length (firstn n l))%nat
  end.
Proof.
  intros c l w r w' Hl H. unfold buf_write in H. assert (Lp : (0 < length l)%nat) by (destruct l; [contradiction | cbn; lia]).
  assert (B : forall w r w', buffer l w = (r, w') ->
    match r with None => False | Some n => sum w' = put (sum w) (at_ w) (firstn n l) /\ at_ w' = (at_ w + length (firstn n l))%nat end).
  { intros w0 r0 w0' Hb. pose proof (buffer_spec l w0) as S0. rewrite Hb in S0. unfold buffer in Hb. injection Hb as <- E.
    rewrite firstn_all. exact S0. }
  set (spare := (w_cap w - length (w_buf w))%nat) in *.
  destruct (Nat.ltb_spec (length l) spare) as [L1 | L1].
  { apply B in H. destruct r; [exact H | contradiction]. }
  destruct (if (spare <? length l)%nat then flush_buf c w else (true, w)) as [ok w1] eqn:E.
  assert (F : sum w1 = sum w /\ at_ w1 = at_ w /\ w_cap w1 = w_cap w /\ (ok = true -> (w_cap w <= length l)%nat -> w_buf w1 = [])).
  { destruct (Nat.ltb_spec spare (length l)) as [L2 | L2].
    - apply flush_buf_spec in E. destruct E as (E1 & E2 & E3 & E4). auto.
    - injection E as <- <-. repeat split. intros _ L3. destruct (w_buf w); [reflexivity | unfold spare in *; cbn [length] in *; lia]. }
  destruct F as (F1 & F2 & F3 & F4). destruct ok; cbn [negb] in H; [| injection H as <- <-; auto].
  destruct (Nat.leb_spec (w_cap w1) (length l)) as [L3 | L3].
  - destruct (inner_write c l (w_dest w1)) as [r1 d1] eqn:W. injection H as <- <-. apply inner_write_spec in W.
    rewrite <- F1, <- F2. unfold sum, at_. cbn [w_dest w_buf]. rewrite F4 by (reflexivity || lia). cbn [put length]. rewrite !Nat.add_0_r.
    destruct r1; exact W.
  - rewrite <- F1, <- F2. apply B in H. destruct r; [exact H | contradiction].
Qed.

Lemma write_all_spec : forall c fuel l w w', write_all c fuel l w = (Done, w') ->
  sum w' = put (sum w) (at_ w) l /\ at_ w' = (at_ w + length l)%nat.
Proof.
  intros c fuel. induction fuel as [| fuel IH]; intros l w w' H; (destruct l as [| x t]; [cbn in H; injection H as <-; cbn [put length]; auto |]).
  - discriminate.
  - set (l := x :: t) in *. change (write_all c (S fuel) l w) with
      (match buf_write c l w with
      | (None, w) => (Refused, w)
      | (Some O, w) => (Refused, w)
      | (Some n, w) => if (length l <? n)%nat then (Panicked, w) else write_all c fuel (skipn n l) w
      end) in H.
    destruct (buf_write c l w) as [r w1] eqn:E. apply buf_write_spec in E; [| discriminate].
    destruct r as [[| n] |]; try discriminate. destruct (length l <? S n)%nat; [discriminate |].
    apply IH in H. destruct H as [H1 H2]. destruct E as [E1 E2]. rewrite H1, H2, E1, E2, put_put, firstn_skipn. split; [reflexivity |].
    rewrite <- Nat.add_assoc, <- app_length, firstn_skipn. reflexivity.
Qed.

Definition agrees (s : stream) (f : file) : Prop :=
  holds (sum (m_writer s)) f /\ at_ (m_writer s) = f_pos f /\ m_byte_offset s = Z.of_nat (f_pos f).

Lemma holds_put : forall b f l, holds b f ->
  holds (put b (f_pos f) l) (ref_op f (Write l)) /\ f_pos (ref_op f (Write l)) = (f_pos f + length l)%nat.
Proof.
  intros b f l [H1 H2]. destruct l as [| x t]; [cbn [put ref_op length]; repeat split; auto |].
  split; [| reflexivity]. split.
  - rewrite length_put. cbn [ref_op f_len]. rewrite H1. reflexivity.
  - intros i. rewrite nth_put. cbn [ref_op f_at]. rewrite H2. reflexivity.
Qed.

Lemma seek_relative_spec : forall c k w w', seek_relative c k w = (true, w') ->
  sum w' = sum w /\ Z.of_nat (at_ w') = Z.of_nat (at_ w) + k.
Proof.
  intros c k w w' H. unfold seek_relative in H. destruct (flush_buf c w) as [ok w1] eqn:E. apply flush_buf_spec in E.
  destruct E as (E1 & E2 & E3 & E4). destruct ok; [| discriminate]. specialize (E4 eq_refl).
  unfold inner_seek in H. destruct (skips c) as [f |]; [| discriminate].
  destruct (f (d_turn (w_dest w1)) && (0 <=? Z.of_nat (d_pos (w_dest w1)) + k)) eqn:G; [| discriminate].
  apply andb_prop in G. destruct G as [_ G]. apply Z.leb_le in G. injection H as <-.
  rewrite <- E1, <- E2. unfold sum, at_. cbn [w_dest w_buf d_bytes d_pos]. rewrite E4. cbn [put length]. rewrite !Nat.add_0_r.
  split; [reflexivity | lia].
Qed.

Lemma op_agrees : forall c s f o s', agrees s f -> code_op c s o = (Done, s') ->
  agrees s' (ref_op f o) /\ (o = Flush -> w_buf (m_writer s') = []).
Proof.
  intros c s f o s' (A1 & A2 & A3) H. destruct o as [l | k | o |]; cbn [code_op] in H.
  - split; [| discriminate]. unfold write in H. destruct (write_all c (length l) l (m_writer s)) as [r w] eqn:E. destruct r; try discriminate.
    injection H as <-. apply write_all_spec in E. destruct E as [E1 E2]. destruct (holds_put _ _ l A1) as [P1 P2].
    unfold agrees. cbn [m_writer m_byte_offset]. rewrite E1, E2, A2, A3, P2. split; [exact P1 | split; [reflexivity | lia]].
  - split; [| discriminate]. unfold skip in H. destruct (Z.ltb_spec k 0); [discriminate |].
    destruct ((0 <? m_stream_length s) && (m_stream_length s <? m_byte_offset s + k)); [discriminate |].
    destruct (seek_relative c k (m_writer s)) as [ok w] eqn:E. destruct ok; [| discriminate]. injection H as <-.
    apply seek_relative_spec in E. destruct E as [E1 E2]. unfold agrees. cbn [m_writer m_byte_offset ref_op f_pos].
    rewrite E1. split; [exact A1 | lia].
  - split; [| discriminate]. unfold seek in H. destruct (seek_relative c (o - m_byte_offset s) (m_writer s)) as [ok w] eqn:E.
    destruct ok; [| discriminate]. injection H as <-. apply seek_relative_spec in E. destruct E as [E1 E2].
    unfold agrees. cbn [m_writer m_byte_offset ref_op f_pos]. rewrite E1. split; [exact A1 | lia].
  - unfold flush in H. destruct (flush_buf c (m_writer s)) as [ok w] eqn:E. destruct ok; [| discriminate]. injection H as <-.
    apply flush_buf_spec in E. destruct E as (E1 & E2 & _ & E4). split; [| intros _; exact (E4 eq_refl)].
    unfold agrees. cbn [m_writer m_byte_offset ref_op]. rewrite E1, E2. auto.
Qed.

Lemma run_agrees : forall c os s f s', agrees s f -> code_run c s os = (Done, s') -> agrees s' (fold_left ref_op os f).
Proof.
  intros c os. induction os as [| o os IH]; intros s f s' A H; cbn [code_run fold_left] in *; [injection H as <-; exact A |].
  destruct (code_op c s o) as [r s1] eqn:E. destruct r; try discriminate. apply IH with s1; [| exact H]. exact (proj1 (op_agrees _ _ _ _ _ A E)).
Qed.

Lemma run_app : forall c os1 os2 s s', code_run c s (os1 ++ os2) = (Done, s') ->
  exists s1, code_run c s os1 = (Done, s1) /\ code_run c s1 os2 = (Done, s').
Proof.
  intros c os1. induction os1 as [| o os IH]; intros os2 s s' H; cbn [app code_run] in *; [eauto |].
  destruct (code_op c s o) as [r s1]. destruct r; try discriminate. apply IH. exact H.
Qed.

Lemma create_agrees : forall cap, agrees (create cap) (File (fun _ => 0) 0 0).
Proof. intros cap. repeat split; cbn; auto. intros i. destruct i; reflexivity. Qed.

(** Whatever the callbacks reply, when a history that ends with a flush succeeds,
    the destination holds exactly what the same history leaves in a file, at
    every capacity of the buffer; and the offset is the position of the file. *)
Theorem c83_truthful : forall c cap os s', code_run c (create cap) (os ++ [Flush]) = (Done, s') ->
  holds (d_bytes (w_dest (m_writer s'))) (ref_run os) /\
  d_pos (w_dest (m_writer s')) = f_pos (ref_run os) /\ tell s' = Z.of_nat (f_pos (ref_run os)).
Proof.
  intros c cap os s' H. apply run_app in H. destruct H as (s1 & H1 & H2).
  pose proof (run_agrees _ _ _ _ _ (create_agrees cap) H1) as A. fold (ref_run os) in A.
  cbn [code_run] in H2. destruct (code_op c s1 Flush) as [r s2] eqn:E. destruct r; try discriminate. injection H2 as <-.
  destruct (op_agrees _ _ _ _ _ A E) as [(B1 & B2 & B3) B4]. specialize (B4 eq_refl). unfold sum, at_ in B1, B2. rewrite B4 in B1, B2.
  cbn [put length ref_op] in B1, B2. rewrite Nat.add_0_r in B2. split; [exact B1 | split; [exact B2 | exact B3]].
Qed.

(** The offset is right between flushes as well. *)
Theorem c83_tell : forall c cap os s', code_run c (create cap) os = (Done, s') -> tell s' = Z.of_nat (f_pos (ref_run os)).
Proof. intros c cap os s' H. exact (proj2 (proj2 (run_agrees _ _ _ _ _ (create_agrees cap) H))). Qed.

(** ** Histories that succeed *)

(** Callbacks that take at least a byte whenever one is offered, never claim more
    than they are offered, and can skip. *)
Definition willing (c : custom) : Prop :=
  (forall t n, (0 < n)%nat -> 1 <= reply c t n <= Z.of_nat n) /\ exists f, skips c = Some f /\ forall t, f t = true.
Definition sane (o : op) : Prop := match o with Skip k => 0 <= k | Seek o => 0 <= o | _ => True end.

Lemma willing_write : forall c l d, willing c -> l <> [] ->
  exists n d', inner_write c l d = (Some (S n), d') /\ (S n <= length l)%nat.
Proof.
  intros c l d [W _] Hl. assert (0 < length l)%nat by (destruct l; [contradiction | cbn; lia]).
  specialize (W (d_turn d) (length l) H). unfold inner_write. destruct (Z.ltb_spec (reply c (d_turn d) (length l)) 0); [lia |].
  exists (Nat.pred (Z.to_nat (reply c (d_turn d) (length l)))). rewrite Nat.succ_pred_pos by lia. eexists. split; [reflexivity | lia].
Qed.

Lemma willing_flush : forall c w, willing c -> exists w', flush_buf c w = (true, w').
Proof.
  intros c w W. unfold flush_buf. enough (G : forall fuel buf d, (length buf <= fuel)%nat -> exists b d', flush_loop c fuel buf d = (true, b, d')).
  { destruct (G (length (w_buf w)) (w_buf w) (w_dest w) (le_n _)) as (b & d & ->). eauto. }
  induction fuel as [| fuel IH]; intros buf d Hf; (destruct buf as [| x t]; [cbn; eauto |]); [cbn in Hf; lia |].
  set (buf := x :: t) in *. destruct (willing_write c buf d W) as (n & d' & E & Ln); [discriminate |].
  change (flush_loop c (S fuel) buf d) with
    (match inner_write c buf d with
      | (None, d) => (false, buf, d)
      | (Some O, d) => (false, buf, d)
      | (Some n, d) => flush_loop c fuel (skipn n buf) d
      end). rewrite E. apply IH. rewrite skipn_length. lia.
Qed.

Lemma willing_buf_write : forall c l w, willing c -> l <> [] ->
  exists n w', buf_write c l w = (Some (S n), w') /\ (S n <= length l)%nat.
Proof.
  intros c l w W Hl. assert (Lp : (0 < length l)%nat) by (destruct l; [contradiction | cbn; lia]).
  assert (B : forall w, exists n w', buffer l w = (Some (S n), w') /\ (S n <= length l)%nat).
  { intros w0. unfold buffer. exists (Nat.pred (length l)). rewrite Nat.succ_pred_pos by lia. eauto. }
  unfold buf_write. destruct (length l <? w_cap w - length (w_buf w))%nat; [apply B |].
  assert (F : exists w1, (if (w_cap w - length (w_buf w) <? length l)%nat then flush_buf c w else (true, w)) = (true, w1)).
  { destruct (w_cap w - length (w_buf w) <? length l)%nat; [apply willing_flush; exact W | eauto]. }
  destruct F as [w1 ->]. cbn [negb]. destruct (w_cap w1 <=? length l)%nat; [| apply B].
  destruct (willing_write c l (w_dest w1) W Hl) as (n & d' & -> & Ln). eauto.
Qed.

Lemma willing_write_all : forall c fuel l w, willing c -> (length l <= fuel)%nat -> exists w', write_all c fuel l w = (Done, w').
Proof.
  intros c fuel. induction fuel as [| fuel IH]; intros l w W Hf; (destruct l as [| x t]; [cbn; eauto |]); [cbn in Hf; lia |].
  set (l := x :: t) in *. destruct (willing_buf_write c l w W) as (n & w' & E & Ln); [discriminate |].
  change (write_all c (S fuel) l w) with
      (match buf_write c l w with
      | (None, w) => (Refused, w)
      | (Some O, w) => (Refused, w)
      | (Some n, w) => if (length l <? n)%nat then (Panicked, w) else write_all c fuel (skipn n l) w
      end). rewrite E. destruct (Nat.ltb_spec (length l) (S n)); [lia |]. apply IH; [exact W | rewrite skipn_length; lia].
Qed.

Lemma willing_seek : forall c k w, willing c -> 0 <= Z.of_nat (at_ w) + k -> exists w', seek_relative c k w = (true, w').
Proof.
  intros c k w W H. unfold seek_relative. destruct (willing_flush c w W) as [w1 E]. rewrite E. apply flush_buf_spec in E.
  destruct E as (_ & E2 & _ & E4). specialize (E4 eq_refl). unfold at_ in E2 at 1. rewrite E4 in E2. cbn [length] in E2.
  destruct W as [_ (f & Ef & Hf)]. unfold inner_seek. rewrite Ef, Hf. destruct (Z.leb_spec 0 (Z.of_nat (d_pos (w_dest w1)) + k)); [| lia].
  cbn [andb]. eauto.
Qed.

Lemma skip_length : forall c s o r s', code_op c s o = (r, s') -> m_stream_length s' = m_stream_length s.
Proof.
  intros c s o r s' H. destruct o as [l | k | o |]; cbn [code_op] in H.
  - unfold write in H. destruct (write_all c (length l) l (m_writer s)) as [x w]. destruct x; injection H as _ <-; reflexivity.
  - unfold skip in H. destruct (k <? 0); [injection H as _ <-; reflexivity |].
    destruct ((0 <? m_stream_length s) && (m_stream_length s <? m_byte_offset s + k)); [injection H as _ <-; reflexivity |].
    destruct (seek_relative c k (m_writer s)) as [ok w]. destruct ok; injection H as _ <-; reflexivity.
  - unfold seek in H. destruct (seek_relative c (o - m_byte_offset s) (m_writer s)) as [ok w]. destruct ok; injection H as _ <-; reflexivity.
  - unfold flush in H. destruct (flush_buf c (m_writer s)) as [ok w]. injection H as _ <-. reflexivity.
Qed.

(** Over a destination that does its part, every history succeeds that does not
    go below 0. *)
Theorem c83_succeeds : forall c cap os, willing c -> Forall sane os -> exists s', code_run c (create cap) os = (Done, s').
Proof.
  intros c cap os W Hs.
  enough (G : forall s f, agrees s f -> m_stream_length s = 0 -> exists s', code_run c s os = (Done, s'))
    by (apply (G _ _ (create_agrees cap)); reflexivity).
  induction Hs as [| o os Ho Hs IH]; intros s f A L; cbn [code_run]; [eauto |].
  assert (E : exists s1, code_op c s o = (Done, s1)).
  { destruct A as (A1 & A2 & A3). destruct o as [l | k | o |]; cbn [code_op sane] in *.
    - unfold write. destruct (willing_write_all c (length l) l (m_writer s) W (le_n _)) as [w ->]. eauto.
    - unfold skip. rewrite L. destruct (Z.ltb_spec k 0); [lia |]. cbn [Z.ltb Z.compare andb].
      destruct (willing_seek c k (m_writer s) W) as [w ->]; [lia | eauto].
    - unfold seek. destruct (willing_seek c (o - m_byte_offset s) (m_writer s) W) as [w ->]; [lia | eauto].
    - unfold flush. destruct (willing_flush c (m_writer s) W) as [w ->]. eauto. }
  destruct E as [s1 E]. rewrite E. apply (IH s1 (ref_op f o)); [exact (proj1 (op_agrees _ _ _ _ _ A E)) |].
  rewrite (skip_length _ _ _ _ _ E). exact L.
Qed.

(** A write that fails while earlier bytes are flushed has taken nothing: the
    offset, and what the destination is going to hold, are as before. Only a
    write of at least the capacity can leave a part behind. *)
Theorem c83_failed_write : forall c l s r s', (length l < w_cap (m_writer s))%nat -> l <> [] ->
  write c l s = (r, s') -> r <> Done ->
  r = Refused /\ sum (m_writer s') = sum (m_writer s) /\ at_ (m_writer s') = at_ (m_writer s) /\ tell s' = tell s.
Proof.
  intros c l s r s' Hl Hn H Hr. unfold write in H. destruct l as [| x t]; [contradiction |]. set (l := x :: t) in *.
  change (write_all c (length l) l (m_writer s)) with
      (match buf_write c l (m_writer s) with
      | (None, w) => (Refused, w)
      | (Some O, w) => (Refused, w)
      | (Some n, w) => if (length l <? n)%nat then (Panicked, w) else write_all c (length t) (skipn n l) w
      end) in H.
  assert (B : fst (buf_write c l (m_writer s)) = Some (length l) \/ fst (buf_write c l (m_writer s)) = None).
  { unfold buf_write. destruct (length l <? w_cap (m_writer s) - length (w_buf (m_writer s)))%nat; [left; reflexivity |].
    destruct (if (w_cap (m_writer s) - length (w_buf (m_writer s)) <? length l)%nat then flush_buf c (m_writer s) else (true, m_writer s)) as [ok w] eqn:E.
    destruct ok; cbn [negb]; [| right; reflexivity]. assert (w_cap w = w_cap (m_writer s)).
    { destruct (w_cap (m_writer s) - length (w_buf (m_writer s)) <? length l)%nat; [apply flush_buf_spec in E; tauto | congruence]. }
    destruct (Nat.leb_spec (w_cap w) (length l)); [lia | left; reflexivity]. }
  destruct (buf_write c l (m_writer s)) as [[n |] w] eqn:E; cbn [fst] in B; destruct B as [B | B]; try discriminate.
  - injection B as ->. assert (Ll : length l = S (length t)) by reflexivity. rewrite Ll in H at 1. rewrite <- Ll in H.
    rewrite Nat.ltb_irrefl, skipn_all in H. exfalso.
    assert (W : write_all c (length t) [] w = (Done, w)) by (destruct (length t); reflexivity). rewrite W in H. congruence.
  - apply buf_write_spec in E; [| discriminate]. injection H as <- <-. cbn [m_writer]. unfold tell. cbn [m_byte_offset]. tauto.
Qed.

Lemma seek_relative_failed : forall c k w w', seek_relative c k w = (false, w') -> sum w' = sum w /\ at_ w' = at_ w.
Proof.
  intros c k w w' H. unfold seek_relative in H. destruct (flush_buf c w) as [ok w1] eqn:E. apply flush_buf_spec in E.
  destruct E as (E1 & E2 & _ & _). destruct ok; [| injection H as <-; auto].
  destruct (inner_seek c k (w_dest w1)) as [b d] eqn:I. injection H as -> <-. unfold inner_seek in I.
  assert (D : d_bytes d = d_bytes (w_dest w1) /\ d_pos d = d_pos (w_dest w1)).
  { destruct (skips c) as [f |]; [| injection I as <-; auto].
    destruct (f (d_turn (w_dest w1)) && (0 <=? Z.of_nat (d_pos (w_dest w1)) + k)); [discriminate |]. injection I as <-. auto. }
  destruct D as [D1 D2]. rewrite <- E1, <- E2. unfold sum, at_. cbn [w_dest w_buf]. rewrite D1, D2. auto.
Qed.

(** Nor has a skip, a seek or a flush that fails. *)
Theorem c83_failed_move : forall c s o s', (forall l, o <> Write l) -> code_op c s o = (Refused, s') ->
  sum (m_writer s') = sum (m_writer s) /\ at_ (m_writer s') = at_ (m_writer s) /\ tell s' = tell s.
Proof.
  intros c s o s' Ho H. destruct o as [l | k | o |]; cbn [code_op] in H; [exfalso; exact (Ho l eq_refl) | | |].
  - unfold skip in H. destruct (k <? 0); [injection H as <-; auto |].
    destruct ((0 <? m_stream_length s) && (m_stream_length s <? m_byte_offset s + k)); [injection H as <-; auto |].
    destruct (seek_relative c k (m_writer s)) as [ok w] eqn:E. destruct ok; [discriminate |]. injection H as <-.
    apply seek_relative_failed in E. destruct E. auto.
  - unfold seek in H. destruct (seek_relative c (o - m_byte_offset s) (m_writer s)) as [ok w] eqn:E. destruct ok; [discriminate |].
    injection H as <-. apply seek_relative_failed in E. destruct E. auto.
  - unfold flush in H. destruct (flush_buf c (m_writer s)) as [ok w] eqn:E. destruct ok; [discriminate |]. injection H as <-.
    apply flush_buf_spec in E. destruct E as (E1 & E2 & _ & _). auto.
Qed.

(** ** Where it goes wrong *)

(** A seek needs the skip callback: a destination that offers seeking, and says
    so, cannot be seeked. *)
Theorem c83_has_seek_refuted : exists c, has_seek c = true /\ (forall t n, (0 < n)%nat -> 1 <= reply c t n <= Z.of_nat n) /\
  forall s o, fst (seek c o s) = Refused.
Proof.
  exists (Custom (fun _ n => Z.of_nat n) None true). split; [reflexivity |]. split; [intros t n Hn; cbn; lia |].
  intros s o. unfold seek, seek_relative. destruct (flush_buf _ (m_writer s)) as [ok w]. destruct ok; reflexivity.
Qed.

(** After a large write that fails half way, the offset is not the position of
    the destination any more, and a seek to the start ends elsewhere. *)
Theorem c83_failed_large_write_refuted : exists c cap l s1 s2,
  write c l (create cap) = (Refused, s1) /\ seek c 0 s1 = (Done, s2) /\ tell s2 = 0 /\ d_pos (w_dest (m_writer s2)) = 2%nat.
Proof.
  exists (Custom (fun t n => if (t =? 0)%nat then 2 else -1) (Some (fun _ => true)) true), 3%nat, [1; 2; 3; 4; 5].
  eexists. eexists. repeat split; reflexivity.
Qed.

(** A write callback that claims more than it was offered makes a large write
    panic; the claim is not checked (stream.rs:138-140). *)
Theorem c83_claim_refuted : exists c cap l s', write c l (create cap) = (Panicked, s').
Proof. exists (Custom (fun _ n => Z.of_nat n + 1) None false), 4%nat, [1; 2; 3; 4; 5]. eexists. reflexivity. Qed.

(** ** Examples *)

(** A header is written, filled in later, and the history goes on at the end; the
    destination takes at most two bytes at a time. *)
Definition two := Custom (fun _ n => Z.min 2 (Z.of_nat n)) (Some (fun _ => true)) true.
Definition history := [Write [0; 0]; Write [3; 4; 5; 6; 7]; Seek 0; Write [1; 2]; Seek 7; Skip 1; Write [9]; Flush].

Example c83_ex : option_map (fun s => (d_bytes (w_dest (m_writer s)), tell s))
    (match code_run two (create 4) history with (Done, s) => Some s | _ => None end) = Some ([1; 2; 3; 4; 5; 6; 7; 0; 9], 9).
Proof. vm_compute. reflexivity. Qed.

Example c83_ex_ref : map (f_at (ref_run history)) (seq 0 9) = [1; 2; 3; 4; 5; 6; 7; 0; 9] /\ f_len (ref_run history) = 9%nat.
Proof. vm_compute. split; reflexivity. Qed.

Example c83_ex_willing : willing two.
Proof. split; [intros t n Hn; cbn [two reply]; lia | exists (fun _ => true); split; reflexivity]. Qed.

(** The buffer holds what has not been flushed. *)
Example c83_ex_buffer : option_map (fun s => (w_buf (m_writer s), d_bytes (w_dest (m_writer s))))
    (match code_run two (create 4) [Write [1; 2; 3]; Write [4; 5]] with (Done, s) => Some s | _ => None end) = Some ([4; 5], [1; 2; 3]).
Proof. vm_compute. reflexivity. Qed.

Print Assumptions c83_truthful.
Print Assumptions c83_tell.
Print Assumptions c83_succeeds.
Print Assumptions c83_failed_write.
Print Assumptions c83_failed_move.
Print Assumptions c83_has_seek_refuted.
Print Assumptions c83_failed_large_write_refuted.
Print Assumptions c83_claim_refuted.
