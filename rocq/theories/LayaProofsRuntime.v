(** Proofs about the server glue. *)

From Coq Require Import List String Arith Bool Lia Permutation.
From Verif Require Import LayaRuntimeModel.
Import ListNotations.

Lemma poll_frames_none : forall n, poll_frames n (mkBody None) = repeat None n.
Proof. induction n; simpl; congruence. Qed.

Lemma poll_frames_new : forall n b, poll_frames (S n) (body_new b) = Some b :: repeat None n.
Proof. intros. cbn. rewrite poll_frames_none. reflexivity. Qed.

Lemma poll_read_bytes : forall cap bytes, poll_read cap (TRead bytes) = HRead bytes.
Proof. intros. simpl. rewrite firstn_app, Nat.sub_diag, firstn_all. simpl. rewrite app_nil_r. reflexivity. Qed.

(** ** Connection bookkeeping *)

Record server_inv (max : nat) (s : server) : Prop := {
  inv_permits : avail s + List.length (serving s) = max;
  inv_all : Permutation (waiting s ++ serving s ++ finished s) (seq 0 (accepted s))
}.

Lemma nodup_all : forall max s, server_inv max s -> NoDup (waiting s ++ serving s ++ finished s).
Proof.
  intros max s H. eapply Permutation_NoDup; [symmetry; exact (inv_all _ _ H) |]. apply seq_NoDup.
Qed.

Lemma remove_len_nodup : forall c l, In c l -> NoDup l ->
  Permutation l (c :: remove Nat.eq_dec c l).
Proof.
  induction l as [| a l IH]; intros Hin Hnd; [contradiction |].
  inversion Hnd; subst. simpl. destruct (Nat.eq_dec c a) as [-> | Hne].
  - rewrite notin_remove by assumption. reflexivity.
  - destruct Hin as [-> | Hin]; [contradiction |].
    rewrite perm_swap. apply perm_skip. apply IH; assumption.
Qed.

Lemma NoDup_app_l : forall {A} (a b : list A), NoDup (a ++ b) -> NoDup a.
Proof.
  induction a; intros b H; [constructor |]. simpl in H. inversion H; subst. constructor; [| eauto].
  intros X. apply H2. apply in_or_app. auto.
Qed.

Lemma NoDup_app_r : forall {A} (a b : list A), NoDup (a ++ b) -> NoDup b.
Proof. induction a; intros b H; [exact H |]. simpl in H. inversion H; subst. eauto. Qed.

Lemma server_init_inv : forall max, server_inv max (server_init max).
Proof. intros. split; simpl; [lia | constructor]. Qed.

Lemma server_step_inv : forall max s e s', server_inv max s -> server_step s e = Some s' -> server_inv max s'.
Proof.
  intros max s e s' Hi Hs. pose proof (nodup_all _ _ Hi) as Hnd. destruct Hi as [Hp Ha].
  destruct e; simpl in Hs.
  - destruct (running s); [| discriminate]; injection Hs as <-. split; simpl; [assumption |].
    rewrite <- app_assoc. simpl.
    transitivity (accepted s :: waiting s ++ serving s ++ finished s).
    { symmetry. apply Permutation_middle. }
    rewrite Ha. change (accepted s :: seq 0 (accepted s)) with ([accepted s] ++ seq 0 (accepted s)).
    rewrite Permutation_app_comm. rewrite <- seq_S. reflexivity.
  - destruct (running s); try discriminate; injection Hs as <-; split; assumption.
  - destruct (running s); try discriminate; injection Hs as <-; split; assumption.
  - destruct (waiting s) as [| c w] eqn:Ew; [discriminate |].
    destruct (avail s) as [| a] eqn:Ea; [discriminate |]. injection Hs as <-.
    split; simpl; [lia |]. rewrite <- Ha. simpl. rewrite <- Permutation_middle. reflexivity.
  - destruct (existsb (Nat.eqb c) (serving s)) eqn:Ex; [| discriminate]; injection Hs as <-.
    apply existsb_exists in Ex. destruct Ex as (c' & Hin & Hc). apply Nat.eqb_eq in Hc. subst c'.
    assert (Hr : Permutation (serving s) (c :: remove Nat.eq_dec c (serving s))).
    { apply remove_len_nodup; [assumption |]. eapply NoDup_app_l, NoDup_app_r. exact Hnd. }
    split; simpl.
    + rewrite (Permutation_length Hr) in Hp. simpl in Hp. lia.
    + rewrite <- Ha. apply Permutation_app_head. rewrite Hr at 2. simpl.
      symmetry. apply Permutation_middle.
Qed.

Lemma server_run_inv : forall l max s s', server_inv max s -> server_run s l = Some s' -> server_inv max s'.
Proof.
  induction l as [| e l IH]; intros max s s' Hi Hr; simpl in Hr; [congruence |].
  destruct (server_step s e) as [s1 |] eqn:E; [| discriminate].
  eapply IH; [| exact Hr]. eapply server_step_inv; eassumption.
Qed.

Lemma limit_holds : forall max l s, server_run (server_init max) l = Some s ->
  List.length (serving s) <= max /\ avail s + List.length (serving s) = max /\
  Permutation (waiting s ++ serving s ++ finished s) (seq 0 (accepted s)) /\
  (server_step s EGrant = None <-> waiting s = [] \/ List.length (serving s) = max).
Proof.
  intros max l s H. destruct (server_run_inv _ max _ _ (server_init_inv max) H) as [Hp Ha].
  split; [lia |]. split; [assumption |]. split; [assumption |]. simpl.
  destruct (waiting s); [split; auto |]. destruct (avail s).
  - split; [intros _; right; lia | auto].
  - split; [discriminate | intros [X | X]; [discriminate | lia]].
Qed.

(** Waiters obtain permits in order of arrival. *)
Record fifo_inv (s : server) : Prop := {
  fifo_range : exists k, waiting s = seq k (accepted s - k) /\ k <= accepted s /\
    forall c, In c (serving s ++ finished s) <-> c < k
}.

Lemma fifo_step : forall s e s', fifo_inv s -> server_step s e = Some s' -> fifo_inv s'.
Proof.
  intros s e s' [(k & Hw & Hk & Hi)] Hs. destruct e; simpl in Hs.
  - destruct (running s); inversion Hs; subst; clear Hs. split. exists k. cbn [waiting accepted serving finished].
    split; [| split; [lia | exact Hi]].
    replace (S (accepted s) - k) with (S (accepted s - k)) by lia.
    rewrite seq_S, Hw. f_equal. f_equal. lia.
  - destruct (running s); inversion Hs; subst; split; exists k; auto.
  - destruct (running s); inversion Hs; subst; split; exists k; auto.
  - destruct (waiting s) as [| c w] eqn:Ew; [discriminate |].
    destruct (avail s) as [| a]; [discriminate |]. inversion Hs; subst; clear Hs.
    destruct (accepted s - k) as [| n] eqn:En; [discriminate |]. simpl in Hw. inversion Hw; subst.
    split. exists (S k). cbn [waiting accepted serving finished]. split; [f_equal; lia | split; [lia |]].
    intros c. specialize (Hi c). cbn [app In]. rewrite Hi. lia.
  - destruct (existsb (Nat.eqb c) (serving s)) eqn:Ex; inversion Hs; subst; clear Hs.
    apply existsb_exists in Ex. destruct Ex as (c' & Hin & Hc). apply Nat.eqb_eq in Hc. subst c'.
    split. exists k. simpl. split; [assumption | split; [assumption |]].
    intros x. rewrite <- Hi, !in_app_iff. simpl.
    destruct (Nat.eq_dec c x) as [-> | Hne].
    + intuition.
    + split; [intros [H | [H | H]]; [left; eapply in_remove; exact H | contradiction | auto] |].
      intros [H | H]; [left; apply in_in_remove; auto | auto].
Qed.

Lemma fifo_run : forall l s s', fifo_inv s -> server_run s l = Some s' -> fifo_inv s'.
Proof.
  induction l as [| e l IH]; intros s s' Hi Hr; simpl in Hr; [congruence |].
  destruct (server_step s e) as [s1 |] eqn:E; [| discriminate].
  eapply IH; [| exact Hr]. eapply fifo_step; eassumption.
Qed.

Lemma fifo_init : forall max, fifo_inv (server_init max).
Proof. intros. split. exists 0. simpl. split; [reflexivity | split; [lia |]]. intros; split; [contradiction | lia]. Qed.

Lemma fifo_order : forall max l s c d, server_run (server_init max) l = Some s ->
  In c (serving s ++ finished s) -> In d (waiting s) -> c < d.
Proof.
  intros max l s c d Hr Hc Hd. destruct (fifo_run _ _ _ (fifo_init max) Hr) as [(k & Hw & Hk & Hi)].
  apply Hi in Hc. rewrite Hw in Hd. apply in_seq in Hd. lia.
Qed.

(** Accepting is never throttled. *)
Lemma run_app : forall a b s, server_run s (a ++ b) =
  match server_run s a with Some s' => server_run s' b | None => None end.
Proof. induction a; intros; simpl; [reflexivity |]. destruct (server_step s a); auto. Qed.

Lemma accepts_run : forall n s, running s = true -> exists s',
  server_run s (repeat EAccept n) = Some s' /\ accepted s' = n + accepted s /\
  List.length (waiting s') = n + List.length (waiting s) /\ running s' = true.
Proof.
  induction n; intros s Hr; simpl; [exists s; auto |]. rewrite Hr.
  match goal with |- context [server_run ?x _] => destruct (IHn x eq_refl) as (s' & H1 & H2 & H3 & H4) end.
  exists s'. simpl in *. rewrite app_length in H3. simpl in H3. repeat split; auto; lia.
Qed.

(** Once stopped, nothing is accepted any more. *)
Lemma stopped_run : forall l s s', running s = false -> server_run s l = Some s' ->
  running s' = false /\ accepted s' = accepted s.
Proof.
  induction l as [| e l IH]; intros s s' Hr H; simpl in H; [inversion H; subst; auto |].
  destruct (server_step s e) as [s1 |] eqn:E; [| discriminate].
  assert (running s1 = false /\ accepted s1 = accepted s) as [H1 H2].
  { destruct e; simpl in E; rewrite ?Hr in E; try discriminate.
    - destruct (waiting s), (avail s); inversion E; subst; auto.
    - destruct (existsb _ _); inversion E; subst; auto. }
  destruct (IH _ _ H1 H). split; congruence.
Qed.
