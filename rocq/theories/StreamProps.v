(** C33: stream reads. *)

From Coq Require Import ZArith List Bool Lia.
From Verif Require Import StreamModel.
Import ListNotations.
Local Open Scope Z_scope.

(** The reference: a file with a position. *)
Inductive op := Read (n : nat) | Skip (k : Z) | Seek (o : Z).
Inductive out := Bytes (l : list Z) | Done | Refused.

Definition ref_op (file : list Z) (p : Z) (o : op) : out * Z :=
  match o with
  | Read n => let l := firstn n (skipn (Z.to_nat p) file) in (Bytes l, p + Z.of_nat (length l))
  | Skip k => if (0 <=? k) && (p + k <=? Z.of_nat (length file)) then (Done, p + k) else (Refused, p)
  | Seek o => if 0 <=? o then (Done, o) else (Refused, p)
  end.
Fixpoint ref_run (file : list Z) (p : Z) (os : list op) : list out :=
  match os with [] => [] | o :: os => let '(r, p) := ref_op file p o in r :: ref_run file p os end.

Definition code_op (chunk : chunks) (s : stream) (o : op) : out * stream :=
  match o with
  | Read n => let '(l, s) := read chunk s n in (Bytes l, s)
  | Skip k => match skip s k with Some s => (Done, s) | None => (Refused, s) end
  | Seek o => match seek s o with Some s => (Done, s) | None => (Refused, s) end
  end.
Fixpoint code_run (chunk : chunks) (s : stream) (os : list op) : list out :=
  match os with [] => [] | o :: os => let '(r, s) := code_op chunk s o in r :: code_run chunk s os end.

(** Every read of the history finds at least as many bytes as it asks for. *)
Fixpoint no_short_read (file : list Z) (p : Z) (os : list op) : Prop :=
  match os with
  | [] => True
  | o :: os =>
      match o with Read n => (Z.to_nat p + n <= length file)%nat | _ => True end /\
      no_short_read file (snd (ref_op file p o)) os
  end.

Lemma firstn_split : forall (l : list Z) k n, (k <= n)%nat -> firstn n l = firstn k l ++ firstn (n - k) (skipn k l).
Proof.
  induction l as [| a l IH]; intros k n H.
  - rewrite skipn_nil, !firstn_nil. reflexivity.
  - destruct k; [rewrite Nat.sub_0_r; reflexivity |]. destruct n; [lia |]. cbn [firstn skipn Nat.sub app]. f_equal. apply IH. lia.
Qed.

Lemma skipn_add : forall (l : list Z) a b, skipn a (skipn b l) = skipn (b + a) l.
Proof.
  induction l as [| x l IH]; intros a b; [rewrite !skipn_nil; reflexivity |].
  destruct b; [reflexivity |]. cbn [skipn Nat.add]. apply IH.
Qed.

Lemma read_exact_full : forall chunk fuel s n, 0 <= ipos s -> (n <= fuel)%nat -> (n <= length (remaining s))%nat ->
  exists t, read_exact chunk fuel s n = (Some (firstn n (remaining s)), mkInner (data s) (ipos s + Z.of_nat n) t).
Proof.
  intros chunk fuel. induction fuel; intros s n Hp Hf Hr; (destruct n; [exists (turn s); cbn [read_exact firstn]; f_equal; destruct s; f_equal; cbn; lia |]); [lia |].
  cbn [read_exact]. unfold inner_read. set (k := Nat.min (S n) (Nat.min (length (remaining s)) (Nat.max 1 (chunk (turn s))))).
  assert (Hk : (1 <= k <= S n)%nat) by lia.
  assert (Lk : length (firstn k (remaining s)) = k) by (rewrite firstn_length; lia).
  destruct (firstn k (remaining s)) as [| b bs] eqn:E; [cbn [length] in Lk; lia |]. rewrite Lk.
  set (s' := mkInner (data s) (ipos s + Z.of_nat k) (S (turn s))).
  assert (Rs : remaining s' = skipn k (remaining s)).
  { unfold remaining, s'. cbn [ipos data]. rewrite skipn_add. f_equal. lia. }
  destruct (IHfuel s' (S n - k)%nat) as [t Et]; [cbn; lia | lia | rewrite Rs, skipn_length; lia |].
  rewrite Et. exists t. rewrite Rs. rewrite <- E, <- firstn_split by lia. f_equal. unfold s'. cbn [data ipos]. f_equal. lia.
Qed.

Definition agrees (file : list Z) (p : Z) (s : stream) : Prop :=
  data (m_inner s) = file /\ ipos (m_inner s) = p /\ m_byte_offset s = p /\ m_stream_length s = Z.of_nat (length file).

(** Any history of reads, skips and seeks in which no read runs over the end
    behaves as a file with a position, whatever the sizes of the chunks that the
    source delivers. *)
Theorem c33_history : forall chunk file os, file <> [] -> no_short_read file 0 os ->
  code_run chunk (open file) os = ref_run file 0 os.
Proof.
  intros chunk file os Hne. assert (A : agrees file 0 (open file)) by (repeat split).
  assert (Hl : (0 < length file)%nat) by (destruct file; [contradiction | cbn; lia]).
  enough (G : forall os s p, agrees file p s -> 0 <= p -> no_short_read file p os -> code_run chunk s os = ref_run file p os)
    by (intros H; apply G; [exact A | lia | exact H]).
  clear os A. induction os as [| o os IH]; intros s p (A1 & A2 & A3 & A4) Hp Hns; [reflexivity |].
  cbn [code_run ref_run no_short_read] in *. destruct Hns as [Hn Hns]. destruct o as [n | k | o]; cbn [code_op ref_op snd] in *.
  - unfold read. assert (Hr : (n <= length (remaining (m_inner s)))%nat) by (unfold remaining; rewrite skipn_length, A1, A2; lia).
    destruct (read_exact_full chunk n (m_inner s) n ltac:(lia) (le_n n) Hr) as [t ->].
    assert (Er : firstn n (remaining (m_inner s)) = firstn n (skipn (Z.to_nat p) file)) by (unfold remaining; rewrite A1, A2; reflexivity).
    assert (Ln : length (firstn n (skipn (Z.to_nat p) file)) = n) by (rewrite firstn_length, skipn_length; lia).
    rewrite Er, Ln in *. f_equal. apply IH; [| lia | exact Hns].
    unfold agrees. cbn. rewrite A1, A2, A3, A4. auto.
  - unfold skip, seek_relative. rewrite A2, A3, A4.
    destruct (Z.ltb_spec k 0) as [L | L]; destruct (Z.leb_spec 0 k) as [L' | L']; try lia; cbn [andb].
    + f_equal. apply IH; [repeat split; assumption | lia | exact Hns].
    + replace (0 <? Z.of_nat (length file)) with true by (symmetry; apply Z.ltb_lt; lia). cbn [andb].
      destruct (Z.ltb_spec (Z.of_nat (length file)) (p + k)); destruct (Z.leb_spec (p + k) (Z.of_nat (length file))); try lia; cbn [snd] in *.
      * f_equal. apply IH; [repeat split; assumption | lia | exact Hns].
      * destruct (Z.ltb_spec (p + k) 0); [lia |]. f_equal. apply IH; [repeat split; cbn; lia || assumption | lia | exact Hns].
  - unfold seek, seek_relative. rewrite A2, A3. replace (p + (o - p)) with o by lia.
    destruct (Z.ltb_spec o 0); destruct (Z.leb_spec 0 o); try lia; cbn [snd] in *.
    + f_equal. apply IH; [repeat split; assumption | lia | exact Hns].
    + f_equal. apply IH; [repeat split; cbn; lia || assumption | lia | exact Hns].
Qed.

(** A read over the end delivers nothing at all: the tail is consumed and lost,
    for every file, position and chunking. *)
Theorem c33_tail_lost : forall chunk s n, 0 <= ipos (m_inner s) -> (length (remaining (m_inner s)) < n)%nat ->
  let '(l, s') := read chunk s n in
  l = [] /\ remaining (m_inner s') = [] /\ m_byte_offset s' = m_byte_offset s.
Proof.
  intros chunk s n Hp Hn. unfold read.
  assert (G : forall fuel i n, 0 <= ipos i -> (length (remaining i) < n)%nat -> (n <= fuel)%nat ->
              exists i', read_exact chunk fuel i n = (None, i') /\ remaining i' = []).
  { clear. induction fuel; intros i n Hp Hn Hf; destruct n; try lia. cbn [read_exact]. unfold inner_read.
    set (k := Nat.min (S n) (Nat.min (length (remaining i)) (Nat.max 1 (chunk (turn i))))).
    set (i' := mkInner (data i) (ipos i + Z.of_nat k) (S (turn i))).
    assert (Rs : remaining i' = skipn k (remaining i)).
    { unfold remaining, i'. cbn [ipos data]. rewrite skipn_add. f_equal. lia. }
    assert (Lk : length (firstn k (remaining i)) = k) by (rewrite firstn_length; lia).
    destruct (firstn k (remaining i)) as [| b bs] eqn:E.
    - exists i'. split; [reflexivity |]. rewrite Rs. cbn [length] in Lk. assert (length (remaining i) = 0)%nat by lia.
      destruct (remaining i); [apply skipn_nil | discriminate].
    - rewrite Lk. cbn [length] in Lk. destruct (IHfuel i' (S n - k)%nat) as (i2 & E2 & R2); [cbn; lia | rewrite Rs, skipn_length; lia | lia |].
      rewrite E2. exists i2. auto. }
  destruct (G n (m_inner s) n Hp Hn (le_n n)) as (i & -> & Ri).
  unfold inner_read. rewrite Ri. rewrite firstn_nil. cbn [length Nat.min].
  rewrite Nat.min_0_r. split; [reflexivity |]. cbn [m_inner m_byte_offset length]. split; [| lia].
  unfold remaining in *. cbn [ipos data]. rewrite Z.add_0_r. exact Ri.
Qed.

(** So the property as stated is false: the last bytes of a file are never
    delivered to a caller that asks for a full buffer. *)
Theorem c33_reads_deliver_refuted : exists file n, forall chunk,
  fst (read chunk (open file) n) <> firstn n file.
Proof.
  exists [1; 2; 3], 5%nat. intros chunk. pose proof (c33_tail_lost chunk (open [1; 2; 3]) 5 ltac:(cbn; lia) ltac:(cbn; lia)) as H.
  destruct (read chunk (open [1; 2; 3]) 5) as [l s']. destruct H as [-> _]. discriminate.
Qed.

(** And a later seek lands at the wrong place, since it is computed from an
    offset that does not count the lost bytes. *)
Theorem c33_seek_refuted :
  exists file os, code_run (fun _ => 4096%nat) (open file) os = [Bytes [10; 11; 12; 13]; Bytes []; Done; Bytes [12; 13]] /\
    ref_run file 0 os = [Bytes [10; 11; 12; 13]; Bytes [14; 15]; Done; Bytes [10; 11]].
Proof. exists [10; 11; 12; 13; 14; 15], [Read 4; Read 5; Seek 0; Read 2]. vm_compute. split; reflexivity. Qed.

(** [get_bytes_left] panics exactly if the offset is outside the declared
    length: after a seek past the end, and at any offset but 0 if the length
    was not declared. *)
Theorem c33_bytes_left : forall s, 0 <= m_byte_offset s -> 0 <= m_stream_length s ->
  (get_bytes_left s = None <-> m_stream_length s < m_byte_offset s) /\
  (m_byte_offset s <= m_stream_length s -> get_bytes_left s = Some (m_stream_length s - m_byte_offset s)).
Proof.
  intros s H0 H1. unfold get_bytes_left. rewrite (proj2 (Z.leb_le 0 (m_byte_offset s)) H0). cbn [andb].
  destruct (Z.leb_spec (m_byte_offset s) (m_stream_length s)).
  - split; [split; [discriminate | lia] |]. intros _. destruct (Z.eqb_spec (m_stream_length s) 0); f_equal; lia.
  - split; [split; [auto | reflexivity] | lia].
Qed.

Theorem c33_bytes_left_panics_refuted :
  (exists file s, seek (open file) 4 = Some s /\ get_bytes_left s = None) /\
  (exists l s', read (fun _ => 8%nat) (mkStream (mkInner [1; 2; 3; 4] 0 0) 0 0) 2 = (l, s') /\ get_bytes_left s' = None).
Proof.
  split.
  - exists [1; 2; 3]. eexists. split; reflexivity.
  - eexists. eexists. split; reflexivity.
Qed.

Example c33_example :
  code_run (fun i => (i + 1)%nat) (open [10; 11; 12; 13; 14; 15]) [Read 3; Skip 1; Read 1; Seek 1; Read 2; Skip 9; Skip (-1); Seek (-1); Read 3] =
  [Bytes [10; 11; 12]; Done; Bytes [14]; Done; Bytes [11; 12]; Refused; Refused; Refused; Bytes [13; 14; 15]].
Proof. vm_compute. reflexivity. Qed.

Print Assumptions c33_history.
Print Assumptions c33_tail_lost.
Print Assumptions c33_reads_deliver_refuted.
Print Assumptions c33_seek_refuted.
Print Assumptions c33_bytes_left.
Print Assumptions c33_bytes_left_panics_refuted.
