(** Memory as a total function from indices to words, and counting loops. *)

From Coq Require Import ZArith List Lia.
Local Open Scope Z_scope.

Definition mem := Z -> Z.
Definition upd (m : mem) (a v : Z) : mem := fun x => if x =? a then v else m x.

Lemma upd_same : forall m a v, upd m a v a = v.
Proof. intros. unfold upd. rewrite Z.eqb_refl. reflexivity. Qed.

Lemma upd_other : forall m a v x, x <> a -> upd m a v x = m x.
Proof. intros. unfold upd. destruct (Z.eqb_spec x a); congruence. Qed.

(** [for i in lo..hi { s = f(i, s) }] *)
Fixpoint loop {A} (n : nat) (i : Z) (f : Z -> A -> A) (s : A) : A :=
  match n with O => s | S n => loop n (i + 1) f (f i s) end.
Definition for_to {A} (lo hi : Z) (f : Z -> A -> A) (s : A) : A := loop (Z.to_nat (hi - lo)) lo f s.

Lemma for_ind : forall {A} (P : Z -> A -> Prop) lo hi f s, lo <= hi -> P lo s ->
  (forall i s, lo <= i < hi -> P i s -> P (i + 1) (f i s)) -> P hi (for_to lo hi f s).
Proof.
  intros A P lo hi f s Hle H0 Hs. unfold for_to.
  assert (G : forall n i s, lo <= i -> i + Z.of_nat n = hi -> P i s -> P hi (loop n i f s)).
  { induction n; intros i t Hi E H; cbn [loop].
    - replace hi with i by lia. exact H.
    - apply IHn; [lia | lia |]. apply Hs; [lia | exact H]. }
  apply G; [lia | lia | exact H0].
Qed.

Lemma for_empty : forall {A} lo hi f (s : A), hi <= lo -> for_to lo hi f s = s.
Proof. intros. unfold for_to. replace (Z.to_nat (hi - lo)) with O by lia. reflexivity. Qed.

Lemma for_ext : forall {A} lo hi (f g : Z -> A -> A) s, (forall i s, lo <= i < hi -> f i s = g i s) ->
  for_to lo hi f s = for_to lo hi g s.
Proof.
  intros A lo hi f g s H. unfold for_to.
  assert (G : forall n i s, lo <= i -> i + Z.of_nat n <= hi \/ n = O -> loop n i f s = loop n i g s).
  { induction n; intros i t Hi E; cbn [loop]; [reflexivity |]. rewrite H by lia. apply IHn; lia. }
  destruct (Z_le_gt_dec lo hi).
  - apply G; lia.
  - replace (Z.to_nat (hi - lo)) with O by lia. reflexivity.
Qed.

(** Filling cells [w i], for [i] in [lo..hi), with values that only depend on
    the memory before the loop. *)
Lemma fill_spec : forall lo hi w v (f : Z -> mem -> mem) m,
  (forall i j, lo <= i < hi -> lo <= j < hi -> w i = w j -> i = j) ->
  (forall i n, lo <= i < hi ->
     (forall x, (forall j, lo <= j < i -> x <> w j) -> n x = m x) ->
     (forall j, lo <= j < i -> n (w j) = v j) ->
     forall x, f i n x = upd n (w i) (v i) x) ->
  (forall i, lo <= i < hi -> for_to lo hi f m (w i) = v i) /\
  (forall x, (forall i, lo <= i < hi -> x <> w i) -> for_to lo hi f m x = m x).
Proof.
  intros lo hi w v f m Hinj Hf. destruct (Z_le_gt_dec lo hi) as [Hle | Hgt].
  2:{ rewrite for_empty by lia. split; intros; [lia | reflexivity]. }
  apply (for_ind (fun k n => k <= hi -> (forall i, lo <= i < k -> n (w i) = v i) /\
           (forall x, (forall i, lo <= i < k -> x <> w i) -> n x = m x))); [exact Hle | | | lia].
  - intros _. split; intros; [lia | reflexivity].
  - intros i n Hi IH Hk. destruct (IH ltac:(lia)) as [A B]. split.
    + intros j Hj. rewrite (Hf i n Hi B A). destruct (Z.eq_dec j i) as [-> | Hne].
      * apply upd_same.
      * rewrite upd_other; [apply A; lia |]. intros E. apply Hne, Hinj; [lia | lia | exact E].
    + intros x Hx. rewrite (Hf i n Hi B A). rewrite upd_other; [| apply Hx; lia].
      apply B. intros j Hj. apply Hx. lia.
Qed.

(** Row and column of an index are determined by it. *)
Lemma row_col : forall s p q c d, 0 <= c < s -> 0 <= d < s -> p * s + c = q * s + d -> p = q /\ c = d.
Proof.
  intros s p q c d Hc Hd E. assert (p = q); [| subst; lia].
  rewrite (Z.div_unique_pos (p * s + c) s p c Hc) by lia.
  rewrite (Z.div_unique_pos (p * s + c) s q d Hd) by lia. reflexivity.
Qed.
