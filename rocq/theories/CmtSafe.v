(** The readers of custom transform segments keep the records in shape. *)

From Coq Require Import ZArith List Bool Lia Permutation.
From Verif Require Import Ints CioModel CioProps HdrModel HdrBytes CmtModel.
Import ListNotations.
Local Open Scope Z_scope.

(** ** Lists *)

Lemma skip_skip : forall A (l : list A) a b, skipn a (skipn b l) = skipn (b + a) l.
Proof. intros A l a b. revert l. induction b as [| b IH]; intros [| x l]; cbn [skipn Nat.add]; try reflexivity; [apply skipn_nil | apply IH]. Qed.

Lemma put_length : forall A i (x : A) l, (i < length l)%nat -> length (put i x l) = length l.
Proof. intros. unfold put. rewrite app_length, firstn_length. cbn [length]. rewrite skipn_length. lia. Qed.
Lemma put_first : forall A i (x : A) l k, (k <= i)%nat -> (i < length l)%nat -> firstn k (put i x l) = firstn k l.
Proof.
  intros. unfold put. rewrite firstn_app, firstn_length, firstn_firstn.
  replace (Nat.min k i) with k by lia. replace (k - Nat.min i (length l))%nat with 0%nat by lia.
  cbn [firstn]. apply app_nil_r.
Qed.
Lemma put_mid : forall A i (x : A) l k, (i < k)%nat -> (i < length l)%nat -> firstn k (put i x l) = put i x (firstn k l).
Proof.
  intros. unfold put. rewrite firstn_app, firstn_length, !firstn_firstn.
  replace (Nat.min k i) with i by lia. replace (Nat.min i k) with i by lia. replace (Nat.min i (length l)) with i by lia.
  f_equal. replace (k - i)%nat with (S (k - S i)) by lia. cbn [firstn]. f_equal. rewrite firstn_skipn_comm. f_equal.
  f_equal. lia.
Qed.
Lemma put_snoc : forall A i (x : A) l, (i < length l)%nat -> firstn (S i) (put i x l) = firstn i l ++ [x].
Proof.
  intros. unfold put. rewrite firstn_app, firstn_length, firstn_firstn.
  replace (Nat.min (S i) i) with i by lia. replace (S i - Nat.min i (length l))%nat with 1%nat by lia. reflexivity.
Qed.
Lemma put_skip : forall A i (x : A) l k, (i < k)%nat -> (i < length l)%nat -> skipn k (put i x l) = skipn k l.
Proof.
  intros. unfold put. rewrite skipn_app, firstn_length.
  rewrite skipn_all2 by (rewrite firstn_length; lia). replace (k - Nat.min i (length l))%nat with (S (k - S i)) by lia.
  change (skipn (S (k - S i)) (x :: skipn (S i) l)) with (skipn (k - S i) (skipn (S i) l)). cbn [app]. rewrite skip_skip. f_equal. lia.
Qed.
Lemma put_here : forall A i (x : A) l, (i < length l)%nat -> skipn i (put i x l) = x :: skipn (S i) l.
Proof.
  intros. unfold put. rewrite skipn_app, firstn_length. rewrite skipn_all2 by (rewrite firstn_length; lia).
  replace (i - Nat.min i (length l))%nat with 0%nat by lia. reflexivity.
Qed.
Lemma put_nth : forall A i (x : A) l, (i < length l)%nat -> nth_error (put i x l) i = Some x.
Proof.
  intros. unfold put. rewrite nth_error_app2 by (rewrite firstn_length; lia). rewrite firstn_length.
  replace (i - Nat.min i (length l))%nat with 0%nat by lia. reflexivity.
Qed.
Lemma put_put : forall A i (x y : A) l, (i < length l)%nat -> put i y (put i x l) = put i y l.
Proof.
  intros. unfold put at 1. rewrite put_first by lia. rewrite put_skip by lia. reflexivity.
Qed.
Lemma put_Forall : forall A (P : A -> Prop) i x l, Forall P l -> P x -> Forall P (put i x l).
Proof.
  intros A P i x l H Hx. unfold put. assert (G := H). rewrite <- (firstn_skipn i l) in G. apply Forall_app in G.
  apply Forall_app. split; [apply G |]. constructor; [exact Hx |].
  rewrite <- (firstn_skipn (S i) l) in H. apply Forall_app in H. apply H.
Qed.
Lemma skip_Forall : forall A (P : A -> Prop) i l, Forall P l -> Forall P (skipn i l).
Proof. intros A P i l H. rewrite <- (firstn_skipn i l) in H. apply Forall_app in H. apply H. Qed.
Lemma first_Forall : forall A (P : A -> Prop) i l, Forall P l -> Forall P (firstn i l).
Proof. intros A P i l H. rewrite <- (firstn_skipn i l) in H. apply Forall_app in H. apply H. Qed.
Lemma put_map : forall A B (f : A -> B) i x y l, nth_error l i = Some y -> f x = f y -> map f (put i x l) = map f l.
Proof.
  intros A B f i x y l H E. unfold put. rewrite <- (firstn_skipn i l) at 3. rewrite !map_app. f_equal.
  cbn [map]. rewrite E. clear E x.
  revert l H. induction i as [| i IH]; intros [| a l] H; cbn [nth_error skipn] in *; try discriminate.
  - injection H as ->. reflexivity.
  - exact (IH l H).
Qed.
Lemma nth_first : forall A (l : list A) k j, (j < k)%nat -> nth_error (firstn k l) j = nth_error l j.
Proof.
  intros A l. induction l as [| a l IH]; intros [| k] [| j] H; try lia; try reflexivity.
  cbn [firstn nth_error]. apply IH. lia.
Qed.
Lemma skip_le : forall A (P : A -> Prop) i k l, (i <= k)%nat -> Forall P (skipn i l) -> Forall P (skipn k l).
Proof. intros A P i k l H F. replace k with (i + (k - i))%nat by lia. rewrite <- skip_skip. apply skip_Forall. exact F. Qed.

(** ** The search *)
Lemma find_spec : forall A (index : A -> Z) l n i ix, (i + n <= length l)%nat ->
  exists j, find index l n i ix = Some j /\ (i <= j <= i + n)%nat /\
    ((j < i + n)%nat -> exists r, nth_error l j = Some r /\ index r = ix) /\
    (forall k r, (i <= k < j)%nat -> nth_error l k = Some r -> index r <> ix).
Proof.
  intros A index l. induction n as [| n IH]; intros i ix H; cbn [find].
  - exists i. split; [reflexivity |]. split; [lia |]. split; intros; lia.
  - destruct (nth_error l i) as [r |] eqn:E; [| apply nth_error_None in E; lia].
    destruct (Z.eqb_spec (index r) ix) as [E1 | E1].
    + exists i. split; [reflexivity |]. split; [lia |]. split; [intros _; exists r; split; assumption | intros; lia].
    + destruct (IH (S i) ix ltac:(lia)) as (j & F & B & G & K). exists j. split; [exact F |]. split; [lia |].
      split; [intros J; apply G; lia |].
      intros k r' Hk Hr. destruct (Nat.eq_dec k i) as [-> | N]; [rewrite E in Hr; injection Hr as <-; exact E1 |].
      apply (K k); [lia | exact Hr].
Qed.
Lemma rd_some : forall n d, (n <= length d)%nat -> exists v r, rd n d = Some (v, r).
Proof. intros n d H. unfold rd. destruct (Nat.ltb_spec (length d) n); [lia |]. eauto. Qed.

(** ** The invariant *)
Definition rec_ok (r : mrec) : Prop := 0 <= r_index r < 256 /\ Forall is_byte (rec_bytes r) /\ 0 <= r_elem r <= 3.
Definition ptr_ok (g k : nat) (p : option ptr) : Prop := match p with None => True | Some (h, j) => h = g /\ (j < k)%nat end.
Definition crec_ok (g k : nat) (c : crec) : Prop := 0 <= c_index c < 256 /\ ptr_ok g k (c_deco c) /\ ptr_ok g k (c_off c).
Definition no_ptr (c : crec) : Prop := c_deco c = None /\ c_off c = None.

Record wf (n : nat) (t : cmt) : Prop := Wf {
  w_mct : (nmct t <= maxmct t <= length (mcts t))%nat;
  w_mcc : (nmcc t <= maxmcc t <= length (mccs t))%nat;
  w_recs : Forall rec_ok (firstn (nmct t) (mcts t));
  w_rdup : NoDup (map r_index (firstn (nmct t) (mcts t)));
  w_crecs : Forall (crec_ok (gen t) (nmct t)) (firstn (nmcc t) (mccs t));
  w_free : Forall no_ptr (skipn (nmcc t) (mccs t));
  w_cdup : NoDup (map c_index (firstn (nmcc t) (mccs t)));
  w_mat : match matrix t with None => True | Some m => length m = (n * n)%nat end;
  w_shifts : length (shifts t) = n }.

Lemma few : forall l, NoDup l -> Forall (fun x => 0 <= x < 256) l -> (length l <= 256)%nat.
Proof.
  intros l N F. rewrite <- (seq_length 256 0). rewrite <- (map_length Z.of_nat (seq 0 256)).
  apply NoDup_incl_length; [exact N |]. intros x I. rewrite Forall_forall in F. specialize (F x I). cbv beta in F.
  apply in_map_iff. exists (Z.to_nat x). split; [lia |]. apply in_seq. lia.
Qed.
Lemma wf_few : forall n t, wf n t -> (nmct t <= 256)%nat /\ (nmcc t <= 256)%nat.
Proof.
  intros n t [A B C D E _ F _ _]. split.
  - assert (G := few _ D). rewrite map_length, firstn_length in G. replace (Nat.min (nmct t) (length (mcts t))) with (nmct t) in G by lia.
    apply G. apply Forall_map. eapply Forall_impl; [| exact C]. intros r [Q _]. exact Q.
  - assert (G := few _ F). rewrite map_length, firstn_length in G. replace (Nat.min (nmcc t) (length (mccs t))) with (nmcc t) in G by lia.
    apply G. apply Forall_map. eapply Forall_impl; [| exact E]. intros r [Q _]. exact Q.
Qed.

Lemma default_wf : forall comps, wf (length comps) (default comps).
Proof.
  intros comps. constructor; cbn [default gen mcts nmct maxmct mccs nmcc maxmcc matrix shifts firstn map skipn]; rewrite ?repeat_length; try lia;
    try (constructor; fail).
  - repeat constructor.
  - apply map_length.
Qed.

(** ** MCT *)
Lemma rebase_all_ok : forall g k n l, Forall (crec_ok g k) (firstn n l) -> (n <= length l)%nat ->
  exists l', rebase_all g n l = Some l' /\ length l' = length l /\ Forall (crec_ok (S g) k) (firstn n l') /\
    map c_index (firstn n l') = map c_index (firstn n l) /\ skipn n l' = skipn n l.
Proof.
  intros g k. induction n as [| n IH]; intros l F H; cbn [rebase_all].
  - exists l. repeat split; constructor.
  - destruct l as [| c l]; [cbn [length] in H; lia |]. cbn [firstn] in F. inversion F as [| ? ? Fc Fl]; subst. cbn [length] in H.
    destruct (IH l Fl ltac:(lia)) as (l' & E & L & F' & M & S'). destruct Fc as (Hi & Hd & Ho).
    assert (R : forall p, ptr_ok g k p -> exists q, rebase g p = Some q /\ ptr_ok (S g) k q).
    { intros [[h j] |] Q; cbn [rebase ptr_ok] in *; [| exists None; split; [reflexivity | exact I]].
      destruct Q as [-> Q]. rewrite Nat.eqb_refl. exists (Some (S g, j)). split; [reflexivity |]. split; [reflexivity | exact Q]. }
    destruct (R _ Hd) as (d & Ed & Fd). destruct (R _ Ho) as (o & Eo & Fo).
    unfold rebase_rec. rewrite Ed, Eo, E. eexists. split; [reflexivity |]. cbn [length firstn map skipn c_index].
    split; [lia |]. split; [constructor; [split; [exact Hi | split; assumption] | exact F'] |]. split; [f_equal; exact M | exact S'].
Qed.
Lemma crec_more : forall g k k' c, (k <= k')%nat -> crec_ok g k c -> crec_ok g k' c.
Proof.
  intros g k k' c H (A & B & C). split; [exact A |].
  split; [destruct (c_deco c) as [[h j] |] | destruct (c_off c) as [[h j] |]]; cbn [ptr_ok] in *; try exact I; intuition lia.
Qed.
(** After a new record the shape holds but for the record itself. *)
Lemma new_mct_ok : forall n t r, wf n t -> rec_ok r -> ~ In (r_index r) (map r_index (firstn (nmct t) (mcts t))) ->
  exists t1 t2, new_mct t = Some t1 /\ set_mct t1 (nmct t) r = Some t2 /\ wf n t2 /\ firstn (nmct t2) (mcts t2) = firstn (nmct t) (mcts t) ++ [r] /\
    nmct t2 = S (nmct t) /\ nmcc t2 = nmcc t.
Proof.
  intros n t r [A B C D E F G H I] R N. unfold new_mct. destruct (Nat.eqb_spec (nmct t) (maxmct t)) as [Q | Q].
  - destruct (rebase_all_ok (gen t) (nmct t) (nmcc t) (mccs t) E ltac:(lia)) as (l & El & Ll & Fl & Ml & Sl). rewrite El.
    eexists. exists (Cmt (S (gen t)) (put (nmct t) r (firstn (nmct t) (mcts t) ++ repeat mrec0 (maxmct t + 10 - nmct t))) (S (nmct t)) (maxmct t + 10)
                l (nmcc t) (maxmcc t) (matrix t) (shifts t)).
    split; [reflexivity |].
    assert (L : (nmct t < length (firstn (nmct t) (mcts t) ++ repeat mrec0 (maxmct t + 10 - nmct t)))%nat).
    { rewrite app_length, firstn_length, repeat_length. lia. }
    assert (P : firstn (S (nmct t)) (put (nmct t) r (firstn (nmct t) (mcts t) ++ repeat mrec0 (maxmct t + 10 - nmct t))) = firstn (nmct t) (mcts t) ++ [r]).
    { rewrite put_snoc by exact L. f_equal. rewrite firstn_app, firstn_firstn, firstn_length. rewrite Nat.min_id.
      replace (nmct t - Nat.min (nmct t) (length (mcts t)))%nat with 0%nat by lia. cbn [firstn]. apply app_nil_r. }
    split. { unfold set_mct. cbn [mcts gen nmct maxmct mccs nmcc maxmcc matrix shifts]. destruct (Nat.ltb_spec (nmct t) (length (firstn (nmct t) (mcts t) ++ repeat mrec0 (maxmct t + 10 - nmct t)))); [reflexivity | lia]. }
    split; [| cbn [nmct mcts nmcc]; split; [exact P | split; reflexivity]].
    constructor; cbn [gen mcts nmct maxmct mccs nmcc maxmcc matrix shifts]; try assumption; try lia.
    + rewrite put_length by exact L. rewrite app_length, firstn_length, repeat_length. lia.
    + rewrite P. apply Forall_app. split; [exact C | repeat constructor; apply R].
    + rewrite P, map_app. cbn [map]. eapply Permutation_NoDup; [apply Permutation_cons_append |]. constructor; assumption.
    + eapply Forall_impl; [| exact Fl]. intros c. apply crec_more. lia.
    + rewrite Sl. exact F.
    + rewrite Ml. exact G.
  - eexists. exists (Cmt (gen t) (put (nmct t) r (mcts t)) (S (nmct t)) (maxmct t) (mccs t) (nmcc t) (maxmcc t) (matrix t) (shifts t)).
    split; [reflexivity |].
    assert (L : (nmct t < length (mcts t))%nat) by lia.
    assert (P := put_snoc _ _ r _ L).
    split. { unfold set_mct. cbn [mcts gen nmct maxmct mccs nmcc maxmcc matrix shifts]. destruct (Nat.ltb_spec (nmct t) (length (mcts t))); [reflexivity | lia]. }
    split; [| cbn [nmct mcts nmcc]; split; [exact P | split; reflexivity]].
    constructor; cbn [gen mcts nmct maxmct mccs nmcc maxmcc matrix shifts]; try assumption; try lia.
    + rewrite put_length by exact L. lia.
    + rewrite P. apply Forall_app. split; [exact C | repeat constructor; apply R].
    + rewrite P, map_app. cbn [map]. eapply Permutation_NoDup; [apply Permutation_cons_append |]. constructor; assumption.
    + eapply Forall_impl; [| exact E]. intros c. apply crec_more. lia.
Qed.
Lemma old_mct_ok : forall n t i r r0, wf n t -> rec_ok r -> (i < nmct t)%nat -> nth_error (mcts t) i = Some r0 -> r_index r0 = r_index r ->
  exists t2, set_mct t i r = Some t2 /\ wf n t2 /\ firstn (nmct t2) (mcts t2) = put i r (firstn (nmct t) (mcts t)) /\ nmct t2 = nmct t /\ nmcc t2 = nmcc t.
Proof.
  intros n t i r r0 [A B C D E F G H I] R L N X. unfold set_mct. destruct (Nat.ltb_spec i (length (mcts t))); [| lia].
  eexists. split; [reflexivity |]. cbn [nmct mcts nmcc]. rewrite put_mid by lia. split; [| repeat split].
  constructor; cbn [gen mcts nmct maxmct mccs nmcc maxmcc matrix shifts]; try assumption.
  - rewrite put_length by lia. lia.
  - rewrite put_mid by lia. apply put_Forall; assumption.
  - rewrite put_mid by lia. rewrite (put_map _ _ r_index i r r0); [exact D | rewrite nth_first by lia; exact N | symmetry; exact X].
Qed.

Lemma skip_bytes : forall n d v r, Forall is_byte d -> rd n d = Some (v, r) -> Forall is_byte r /\ (length d = n + length r)%nat /\ 0 <= v < 256 ^ Z.of_nat n.
Proof. intros n d v r B E. destruct (rd_inv n d v r B E) as (X & Y & Z). repeat split; try assumption; apply X. Qed.

Lemma land255 : forall v, 0 <= Z.land v 255 < 256.
Proof. intros v. change 255 with (Z.ones 8). rewrite Z.land_ones by lia. apply Z.mod_pos_bound. reflexivity. Qed.

Lemma land3 : forall v, 0 <= Z.land v 3 <= 3.
Proof. intros v. change 3 with (Z.ones 2). rewrite Z.land_ones by lia. assert (0 <= v mod 2 ^ 2 < 2 ^ 2) by (apply Z.mod_pos_bound; reflexivity). change (Z.ones 2) with 3. change (2 ^ 2) with 4 in *. lia. Qed.

(** The entry the search gives, as a record of the list. *)
Lemma found : forall A (index : A -> Z) l n ix j, (n <= length l)%nat -> find index l n 0 ix = Some j ->
  (j = n /\ ~ In ix (map index (firstn n l))) \/ ((j < n)%nat /\ exists r, nth_error l j = Some r /\ index r = ix).
Proof.
  intros A index l n ix j H E. destruct (find_spec A index l n 0 ix ltac:(lia)) as (j' & E' & B & G & K).
  rewrite E in E'. injection E' as <-. destruct (Nat.eq_dec j n) as [-> | N]; [left | right; split; [lia | apply G; lia]].
  split; [reflexivity |]. intros I. apply in_map_iff in I. destruct I as (r & Er & Ir).
  apply In_nth_error in Ir. destruct Ir as (k & Hk). assert (Lk : (k < n)%nat).
  { assert (k < length (firstn n l))%nat by (apply nth_error_Some; rewrite Hk; discriminate). rewrite firstn_length in *. lia. }
  rewrite nth_first in Hk by exact Lk. apply (K k r); [lia | exact Hk | exact Er].
Qed.

Theorem read_mct_safe : forall n t seg, wf n t -> Forall is_byte seg ->
  read_mct t seg = Some None \/ exists t', read_mct t seg = Some (Some t') /\ wf n t' /\ nmcc t' = nmcc t.
Proof.
  intros n t seg W B. unfold read_mct, len.
  destruct (Z.ltb_spec (Z.of_nat (length seg)) 2); [left; reflexivity |].
  destruct (rd_some 2 seg ltac:(lia)) as (z & d & E1). rewrite E1. destruct (skip_bytes _ _ _ _ B E1) as (B1 & L1 & _).
  destruct (z =? 0); cbn [negb]; [| right; exists t; repeat split; apply W].
  destruct (Z.leb_spec (Z.of_nat (length seg)) 6); [left; reflexivity |].
  destruct (rd_some 2 d ltac:(lia)) as (im & d2 & E2). rewrite E2. destruct (skip_bytes _ _ _ _ B1 E2) as (B2 & L2 & _).
  destruct (rd_some 2 d2 ltac:(lia)) as (y & d3 & E3). destruct (skip_bytes _ _ _ _ B2 E3) as (B3 & L3 & _).
  assert (Q := w_mct _ _ W).
  destruct (find_spec _ r_index (mcts t) (nmct t) 0 (Z.land im 255) ltac:(lia)) as (j & F & _). rewrite F. rewrite E3.
  set (r := MRec (Z.land im 255) (Z.land (Z.shiftr im 8) 3) (Z.land (Z.shiftr im 10) 3) (if y =? 0 then Some d3 else None)).
  assert (R : rec_ok r).
  { split; [cbn [r_index r]; apply land255 |]. split; [| cbn [r_elem r]; apply land3]. unfold r, rec_bytes. cbn [r_data].
    destruct (y =? 0); [exact B3 | constructor]. }
  destruct (found _ r_index (mcts t) (nmct t) (Z.land im 255) j ltac:(lia) F) as [[-> N] | [J (r0 & N & X)]].
  - rewrite Nat.eqb_refl. destruct (new_mct_ok n t r W R N) as (t1 & t2 & T1 & T2 & W2 & _ & _ & M). rewrite T1, T2.
    right. exists t2. split; [reflexivity | split; assumption].
  - destruct (Nat.eqb_spec j (nmct t)); [lia |]. destruct (old_mct_ok n t j r r0 W R J N X) as (t2 & T2 & W2 & _ & _ & M). rewrite T2.
    right. exists t2. split; [reflexivity | split; assumption].
Qed.

(** ** MCC *)
Lemma mcc_room_ok : forall n t, wf n t -> wf n (mcc_room t) /\ (nmcc (mcc_room t) < maxmcc (mcc_room t))%nat /\ nmcc (mcc_room t) = nmcc t /\
  firstn (nmcc t) (mccs (mcc_room t)) = firstn (nmcc t) (mccs t) /\
  gen (mcc_room t) = gen t /\ mcts (mcc_room t) = mcts t /\ nmct (mcc_room t) = nmct t.
Proof.
  intros n t W. unfold mcc_room. destruct (Nat.eqb_spec (nmcc t) (maxmcc t)) as [Q | Q].
  - cbn [gen mcts nmct maxmct mccs nmcc maxmcc matrix shifts]. destruct W as [A B C D E F G H I].
    assert (P : firstn (nmcc t) (firstn (nmcc t) (mccs t) ++ repeat crec0 (maxmcc t + 10 - nmcc t)) = firstn (nmcc t) (mccs t)).
    { rewrite firstn_app, firstn_firstn, firstn_length, Nat.min_id. replace (nmcc t - Nat.min (nmcc t) (length (mccs t)))%nat with 0%nat by lia.
      cbn [firstn]. apply app_nil_r. }
    split; [| repeat split; try lia; exact P].
    constructor; cbn [gen mcts nmct maxmct mccs nmcc maxmcc matrix shifts]; rewrite ?P; try assumption.
    + rewrite app_length, firstn_length, repeat_length. lia.
    + rewrite skipn_app, firstn_length. rewrite skipn_all2 by (rewrite firstn_length; lia). cbn [app].
      apply skip_Forall. apply Forall_forall. intros x X. apply repeat_spec in X. subst x. split; reflexivity.
  - split; [exact W |]. destruct W as [A B _ _ _ _ _ _ _]. repeat split; lia.
Qed.
Lemma set_old : forall n t i c c0, wf n t -> (i < nmcc t)%nat -> nth_error (mccs t) i = Some c0 -> c_index c = c_index c0 ->
  crec_ok (gen t) (nmct t) c -> wf n (set_mcc t i c).
Proof.
  intros n t i c c0 [A B C D E F G H I] L N X K. constructor; cbn [set_mcc gen mcts nmct maxmct mccs nmcc maxmcc matrix shifts]; try assumption.
  - rewrite put_length by lia. lia.
  - rewrite put_mid by lia. apply put_Forall; assumption.
  - rewrite put_skip by lia. exact F.
  - rewrite put_mid by lia. rewrite (put_map _ _ c_index i c c0); [exact G | rewrite nth_first by lia; exact N | exact X].
Qed.
Lemma set_free : forall n t c, wf n t -> (nmcc t < maxmcc t)%nat -> no_ptr c -> wf n (set_mcc t (nmcc t) c).
Proof.
  intros n t c [A B C D E F G H I] L K. constructor; cbn [set_mcc gen mcts nmct maxmct mccs nmcc maxmcc matrix shifts]; try assumption.
  - rewrite put_length by lia. lia.
  - rewrite put_first by lia. exact E.
  - rewrite put_here by lia. constructor; [exact K |]. apply (skip_le _ _ (nmcc t)); [lia | exact F].
  - rewrite put_first by lia. exact G.
Qed.
Lemma set_new : forall n t c, wf n t -> (nmcc t < maxmcc t)%nat -> crec_ok (gen t) (nmct t) c -> ~ In (c_index c) (map c_index (firstn (nmcc t) (mccs t))) ->
  wf n (count_mcc (set_mcc t (nmcc t) c)).
Proof.
  intros n t c [A B C D E F G H I] L K N. assert (P := put_snoc _ (nmcc t) c (mccs t) ltac:(lia)).
  constructor; cbn [count_mcc set_mcc gen mcts nmct maxmct mccs nmcc maxmcc matrix shifts]; try assumption.
  - rewrite put_length by lia. lia.
  - rewrite P. apply Forall_app. split; [exact E | repeat constructor; apply K].
  - rewrite put_skip by lia. apply (skip_le _ _ (nmcc t)); [lia | exact F].
  - rewrite P, map_app. cbn [map]. eapply Permutation_NoDup; [apply Permutation_cons_append |]. constructor; assumption.
Qed.

Lemma in_order_safe : forall w n j d, (1 <= w)%nat -> (w * n <= length d)%nat -> Forall is_byte d ->
  exists b r, in_order w n j d = Some (b, r) /\ (b = true -> (length d = w * n + length r)%nat /\ Forall is_byte r).
Proof.
  intros w. induction n as [| n IH]; intros j d Hw H B; cbn [in_order].
  - exists true, d. split; [reflexivity |]. intros _. split; [lia | exact B].
  - destruct (rd_some w d ltac:(lia)) as (v & r & E). rewrite E. destruct (skip_bytes _ _ _ _ B E) as (B1 & L1 & _).
    destruct (v =? j).
    + destruct (IH (j + 1) r Hw ltac:(lia) B1) as (b & r2 & E2 & G). exists b, r2. split; [exact E2 |]. intros X. destruct (G X). split; [lia | assumption].
    + exists false, r. split; [reflexivity | discriminate].
Qed.
Lemma array_of_safe : forall n t ix, wf n t -> array_of t ix = Some None \/ exists p, array_of t ix = Some (Some p) /\ ptr_ok (gen t) (nmct t) p.
Proof.
  intros n t ix W. unfold array_of. destruct (ix =? 0); [right; exists None; split; [reflexivity | exact I] |].
  assert (Q := w_mct _ _ W). destruct (find_spec _ r_index (mcts t) (nmct t) 0 ix ltac:(lia)) as (j & F & B & _). rewrite F.
  destruct (Nat.eqb_spec j (nmct t)); [left; reflexivity | right]. eexists. split; [reflexivity |]. split; [reflexivity | lia].
Qed.
Lemma field : forall v, 0 <= v < 65536 -> (Z.shiftr v 15 = 0 \/ Z.shiftr v 15 = 1) /\ 0 <= Z.land v 32767 < 32768.
Proof.
  intros v H. split.
  - rewrite Z.shiftr_div_pow2 by lia. change (2 ^ 15) with 32768. assert (v / 32768 < 2) by (apply Z.div_lt_upper_bound; lia).
    assert (0 <= v / 32768) by (apply Z.div_pos; lia). lia.
  - change 32767 with (Z.ones 15). rewrite Z.land_ones by lia. apply Z.mod_pos_bound. reflexivity.
Qed.
Lemma set_set : forall t i c1 c2, (i < length (mccs t))%nat -> set_mcc (set_mcc t i c1) i c2 = set_mcc t i c2.
Proof. intros t i c1 c2 H. unfold set_mcc. cbn [mccs gen mcts nmct maxmct nmcc maxmcc matrix shifts]. rewrite put_put by exact H. reflexivity. Qed.
Lemma array_of_set : forall t i c ix, array_of (set_mcc t i c) ix = array_of t ix.
Proof. reflexivity. Qed.

Lemma collection_safe : forall n t i c d, wf n t -> (i < length (mccs t))%nat -> Forall is_byte d -> Z.of_nat (length d) < 2 ^ 32 ->
  let r := collection (set_mcc t i c) i c (Z.of_nat (length d)) d in
  r = Some Refused \/
  (exists c1, r = Some (Ignored (set_mcc t i c1)) /\ c_index c1 = c_index c /\ c_deco c1 = c_deco c /\ c_off c1 = c_off c) \/
  (exists c1 s, r = Some (Read (set_mcc t i c1) s) /\ c_index c1 = c_index c /\ ptr_ok (gen t) (nmct t) (c_deco c1) /\ ptr_ok (gen t) (nmct t) (c_off c1)).
Proof.
  intros n t i c d W Hi B Hs r. subst r. unfold collection. change (2 ^ 32) with 4294967296 in Hs.
  destruct (Z.ltb_spec (Z.of_nat (length d)) 3); [left; reflexivity |].
  destruct (rd_some 1 d ltac:(lia)) as (x & d1 & E1). rewrite E1. destruct (skip_bytes _ _ _ _ B E1) as (B1 & L1 & _).
  destruct (x =? 1); cbn [negb]; [| right; left; exists c; repeat split].
  destruct (rd_some 2 d1 ltac:(lia)) as (v & d2 & E2). rewrite E2. destruct (skip_bytes _ _ _ _ B1 E2) as (B2 & L2 & Hv).
  change (256 ^ Z.of_nat 2) with 65536 in Hv. destruct (field v Hv) as [Hw Hn]. cbv zeta.
  set (n0 := Z.land v 32767) in *. clearbody n0. set (w := 1 + Z.shiftr v 15) in *. assert (Hw' : w = 1 \/ w = 2) by (unfold w; lia). clearbody w. clear Hw.
  rewrite set_set by exact Hi. set (c1 := CRec (c_index c) n0 (c_deco c) (c_off c) (c_irr c)).
  assert (Hwn : 0 <= w * n0 < 65536) by (destruct Hw' as [-> | ->]; lia).
  rewrite (u32_id (Z.of_nat (length d) - 3)) by (change (2 ^ 32) with 4294967296; lia).
  rewrite (u32_id (w * n0)) by (change (2 ^ 32) with 4294967296; lia). rewrite (u32_id (w * n0 + 2)) by (change (2 ^ 32) with 4294967296; lia).
  destruct (Z.ltb_spec (Z.of_nat (length d) - 3) (w * n0 + 2)); [left; reflexivity |].
  rewrite (u32_id (Z.of_nat (length d) - 3 - (w * n0 + 2))) by (change (2 ^ 32) with 4294967296; lia).
  assert (EN : Z.of_nat (Z.to_nat w * Z.to_nat n0) = w * n0) by (rewrite Nat2Z.inj_mul, !Z2Nat.id by lia; reflexivity).
  destruct (in_order_safe (Z.to_nat w) (Z.to_nat n0) 0 d2 ltac:(lia) ltac:(lia) B2) as (b & d3 & E3 & G3). rewrite E3.
  destruct b; [| right; left; exists c1; repeat split]. destruct (G3 eq_refl) as [L3 B3].
  destruct (rd_some 2 d3 ltac:(lia)) as (v' & d4 & E4). rewrite E4. destruct (skip_bytes _ _ _ _ B3 E4) as (B4 & L4 & Hv').
  change (256 ^ Z.of_nat 2) with 65536 in Hv'. destruct (field v' Hv') as [Hw2 _].
  set (w2 := 1 + Z.shiftr v' 15) in *. assert (Hw2' : w2 = 1 \/ w2 = 2) by (unfold w2; lia). clearbody w2. clear Hw2.
  destruct (Z.land v' 32767 =? n0); cbn [negb]; [| right; left; exists c1; repeat split].
  assert (Hwn2 : 0 <= w2 * n0 < 65536) by (destruct Hw2' as [-> | ->]; lia).
  rewrite (u32_id (w2 * n0)) by (change (2 ^ 32) with 4294967296; lia). rewrite (u32_id (w2 * n0 + 3)) by (change (2 ^ 32) with 4294967296; lia).
  destruct (Z.ltb_spec (Z.of_nat (length d) - 3 - (w * n0 + 2)) (w2 * n0 + 3)); [left; reflexivity |].
  assert (EN2 : Z.of_nat (Z.to_nat w2 * Z.to_nat n0) = w2 * n0) by (rewrite Nat2Z.inj_mul, !Z2Nat.id by lia; reflexivity).
  destruct (in_order_safe (Z.to_nat w2) (Z.to_nat n0) 0 d4 ltac:(lia) ltac:(lia) B4) as (b & d5 & E5 & G5). rewrite E5.
  destruct b; [| right; left; exists c1; repeat split]. destruct (G5 eq_refl) as [L5 B5].
  destruct (rd_some 3 d5 ltac:(lia)) as (tm & d6 & E6). rewrite E6. rewrite !array_of_set.
  destruct (array_of_safe n t (Z.land tm 255) W) as [E | (p & E & P)]; rewrite E; [left; reflexivity |].
  destruct (array_of_safe n t (Z.land (Z.shiftr tm 8) 255) W) as [E' | (p' & E' & P')]; rewrite E'; [left; reflexivity |].
  right. right. eexists. eexists. rewrite set_set by exact Hi. split; [reflexivity |]. repeat split; assumption.
Qed.

Theorem read_mcc_safe : forall n t seg, wf n t -> Forall is_byte seg -> len seg < 2 ^ 32 ->
  read_mcc t seg = Some None \/ exists t', read_mcc t seg = Some (Some t') /\ wf n t'.
Proof.
  intros n t seg W B Hs. unfold read_mcc, len in *. change (2 ^ 32) with 4294967296 in Hs.
  destruct (Z.ltb_spec (Z.of_nat (length seg)) 2); [left; reflexivity |].
  destruct (rd_some 2 seg ltac:(lia)) as (z & d & E1). rewrite E1. destruct (skip_bytes _ _ _ _ B E1) as (B1 & L1 & _).
  destruct (z =? 0); cbn [negb]; [| right; exists t; split; [reflexivity | exact W]].
  destruct (Z.ltb_spec (Z.of_nat (length seg)) 7); [left; reflexivity |].
  destruct (rd_some 1 d ltac:(lia)) as (ix & d2 & E2). rewrite E2. destruct (skip_bytes _ _ _ _ B1 E2) as (B2 & L2 & Hix). change (256 ^ Z.of_nat 1) with 256 in Hix.
  destruct (rd_some 2 d2 ltac:(lia)) as (y & d3 & E3). destruct (skip_bytes _ _ _ _ B2 E3) as (B3 & L3 & _).
  destruct (rd_some 2 d3 ltac:(lia)) as (q & d4 & E4). destruct (skip_bytes _ _ _ _ B3 E4) as (B4 & L4 & _).
  assert (Q := w_mcc _ _ W).
  destruct (find_spec _ c_index (mccs t) (nmcc t) 0 ix ltac:(lia)) as (i & F & Hi & _). rewrite F.
  assert (U : u32 (Z.of_nat (length seg) - 7) = Z.of_nat (length d4)) by (rewrite u32_id by (change (2 ^ 32) with 4294967296; lia); lia).
  assert (U2 : Z.of_nat (length d4) < 2 ^ 32) by (change (2 ^ 32) with 4294967296; lia).
  rewrite U. rewrite E3, E4.
  destruct (found _ c_index (mccs t) (nmcc t) ix i ltac:(lia) F) as [[-> N] | [J (c0 & N & X)]].
  - rewrite Nat.eqb_refl. destruct (mcc_room_ok n t W) as (W1 & R1 & R2 & R3 & R4 & R5 & R6).
    set (t1 := mcc_room t) in *. clearbody t1. assert (Q1 := w_mcc _ _ W1).
    destruct (nth_error (mccs t1) (nmcc t)) as [c |] eqn:Ec; [| apply nth_error_None in Ec; lia].
    assert (NP : no_ptr c).
    { assert (Fr := w_free _ _ W1). rewrite Forall_forall in Fr. apply Fr. rewrite R2.
      apply (nth_error_In _ 0). rewrite <- Ec. clear. generalize (mccs t1), (nmcc t). clear. intros l k. revert l. induction k; intros [| a l]; try reflexivity. apply IHk. }
    set (c1 := CRec ix (c_nb c) (c_deco c) (c_off c) (c_irr c)).
    assert (W2 : forall c', no_ptr c' -> wf n (set_mcc t1 (nmcc t) c')). { intros c' Hc. rewrite <- R2. apply set_free; [exact W1 | exact R1 | exact Hc]. }
    assert (NP1 : no_ptr c1) by exact NP.
    destruct (y =? 0); cbn [negb]; [| right; eexists; split; [reflexivity | apply W2; exact NP1]].
    destruct (1 <? q); [right; eexists; split; [reflexivity | apply W2; exact NP1] |].
    assert (W3 : forall c', c_index c' = ix -> ptr_ok (gen t1) (nmct t1) (c_deco c') -> ptr_ok (gen t1) (nmct t1) (c_off c') -> wf n (count_mcc (set_mcc t1 (nmcc t) c'))).
    { intros c' Ei P1 P2. rewrite <- R2. apply set_new; [exact W1 | exact R1 | | rewrite Ei, R2, R3; exact N].
      split; [rewrite Ei; exact Hix | split; assumption]. }
    destruct (q =? 0).
    + destruct (Z.of_nat (length d4) =? 0); cbn [negb]; [| left; reflexivity]. right. eexists. split; [reflexivity |].
      apply W3; [reflexivity | |]; destruct NP1 as [P1 P2]; [rewrite P1 | rewrite P2]; exact I.
    + destruct (collection_safe n t1 (nmcc t) c1 d4 W1 ltac:(lia) B4 U2) as [K | [(c2 & K & K1 & K2 & K3) | (c2 & s & K & K1 & K2 & K3)]]; rewrite K.
      * left. reflexivity.
      * right. eexists. split; [reflexivity |]. apply W2. destruct NP1 as [P1 P2]. split; congruence.
      * destruct (s =? 0); cbn [negb]; [| left; reflexivity]. right. eexists. split; [reflexivity |]. apply W3; assumption.
  - destruct (Nat.eqb_spec i (nmcc t)); [lia |]. rewrite N.
    assert (C0 : crec_ok (gen t) (nmct t) c0).
    { assert (Cr := w_crecs _ _ W). rewrite Forall_forall in Cr. apply Cr. apply (nth_error_In _ i). rewrite nth_first by exact J. exact N. }
    set (c1 := CRec ix (c_nb c0) (c_deco c0) (c_off c0) (c_irr c0)).
    assert (W2 : forall c', c_index c' = ix -> ptr_ok (gen t) (nmct t) (c_deco c') -> ptr_ok (gen t) (nmct t) (c_off c') -> wf n (set_mcc t i c')).
    { intros c' Ei P1 P2. apply (set_old n t i c' c0 W J N); [congruence |]. split; [rewrite Ei; exact Hix | split; assumption]. }
    assert (W1 : wf n (set_mcc t i c1)) by (apply W2; [reflexivity | apply C0 | apply C0]).
    destruct (y =? 0); cbn [negb]; [| right; eexists; split; [reflexivity | exact W1]].
    destruct (1 <? q); [right; eexists; split; [reflexivity | exact W1] |].
    destruct (q =? 0).
    + destruct (Z.of_nat (length d4) =? 0); cbn [negb]; [| left; reflexivity]. right. eexists. split; [reflexivity | exact W1].
    + destruct (collection_safe n t i c1 d4 W ltac:(lia) B4 U2) as [K | [(c2 & K & K1 & K2 & K3) | (c2 & s & K & K1 & K2 & K3)]]; rewrite K.
      * left. reflexivity.
      * right. eexists. split; [reflexivity |]. apply W2; [exact K1 | rewrite K2; apply C0 | rewrite K3; apply C0].
      * destruct (s =? 0); cbn [negb]; [| left; reflexivity]. right. eexists. split; [reflexivity |]. apply W2; assumption.
Qed.

Ltac conj := repeat match goal with |- _ /\ _ => split end; try reflexivity.

(** ** MCO *)
Definition takes (f : bytes -> option (Z * bytes)) (s : nat) : Prop :=
  forall d, (s <= length d)%nat -> exists v r, f d = Some (v, r) /\ (length d = s + length r)%nat.
Lemma elems_safe : forall f s n d, takes f s -> (n * s <= length d)%nat -> exists l, elems f n d = Some l /\ length l = n.
Proof.
  intros f s. induction n as [| n IH]; intros d T H; cbn [elems].
  - exists []. split; reflexivity.
  - destruct (T d ltac:(cbn [Nat.mul] in H; lia)) as (v & r & E & L). rewrite E.
    destruct (IH r T ltac:(cbn [Nat.mul] in H; lia)) as (l & E2 & L2). rewrite E2. exists (v :: l). split; [reflexivity |]. cbn [length]. lia.
Qed.
Lemma takes_rd : forall n, takes (rd n) n.
Proof. intros n d H. destruct (rd_some n d H) as (v & r & E). exists v, r. split; [exact E | exact (rd_len _ _ _ _ E)]. Qed.
Lemma takes_map : forall f s (g : Z -> Z), takes f s -> takes (fun d => match f d with Some (v, d) => Some (g v, d) | None => None end) s.
Proof. intros f s g T d H. destruct (T d H) as (v & r & E & L). rewrite E. eauto. Qed.
Lemma takes_double : forall g : Z -> Z, takes (fun d => match read_double d 0 with Some v => Some (g v, skipn 8 d) | None => None end) 8.
Proof.
  intros g d H. unfold read_double, slice. destruct (Nat.leb_spec (0 + 8) (length d)); [| lia]. eexists. eexists. split; [reflexivity |].
  rewrite skipn_length. lia.
Qed.
Lemma takes_float : forall e, 0 <= e <= 3 -> takes (elem_float e) (Z.to_nat (elem_size e)).
Proof.
  intros e H. unfold elem_float, elem_size. destruct (Z.eqb_spec e 0); [exact (takes_map _ _ f32_int (takes_rd 2)) |].
  destruct (Z.eqb_spec e 1); [subst e; exact (takes_map _ _ f32_int (takes_rd 4)) |]. destruct (Z.eqb_spec e 2); [subst e; exact (takes_rd 4) |].
  destruct (Z.eqb_spec e 3); [exact (takes_double f32_of_f64) | lia].
Qed.
Lemma takes_int : forall e, 0 <= e <= 3 -> takes (elem_int e) (Z.to_nat (elem_size e)).
Proof.
  intros e H. unfold elem_int, elem_size. destruct (Z.eqb_spec e 0); [exact (takes_map _ _ i32 (takes_rd 2)) |].
  destruct (Z.eqb_spec e 1); [subst e; exact (takes_map _ _ i32 (takes_rd 4)) |]. destruct (Z.eqb_spec e 2); [subst e; exact (takes_map _ _ i32_of_f32 (takes_rd 4)) |].
  destruct (Z.eqb_spec e 3); [exact (takes_double i32_of_f64) | lia].
Qed.
Lemma deref_ok : forall n t h j, wf n t -> ptr_ok (gen t) (nmct t) (Some (h, j)) -> exists r, deref t (h, j) = Some r /\ rec_ok r.
Proof.
  intros n t h j W [-> L]. unfold deref. cbn [fst snd]. rewrite Nat.eqb_refl. assert (Q := w_mct _ _ W).
  destruct (nth_error (mcts t) j) as [r |] eqn:E; [| apply nth_error_None in E; lia]. exists r. split; [reflexivity |].
  assert (R := w_recs _ _ W). rewrite Forall_forall in R. apply R. apply (nth_error_In _ j). rewrite nth_first by exact L. exact E.
Qed.
Lemma set_matrix_wf : forall n t m, wf n t -> match m with None => True | Some m => length m = (n * n)%nat end -> wf n (set_matrix t m).
Proof. intros n t m [A B C D E F G H I] M. constructor; assumption. Qed.
Lemma set_shifts_wf : forall n t l, wf n t -> length l = n -> exists t', set_shifts t l = Some t' /\ wf n t' /\
  t' = Cmt (gen t) (mcts t) (nmct t) (maxmct t) (mccs t) (nmcc t) (maxmcc t) (matrix t) l.
Proof.
  intros n t l W L. assert (S := w_shifts _ _ W). unfold set_shifts. destruct (Nat.leb_spec (length l) (length (shifts t))); [| lia].
  rewrite skipn_all2 by lia. rewrite app_nil_r. eexists. split; [reflexivity |]. split; [| reflexivity].
  destruct W as [A B C D E F G H0 I]. constructor; assumption.
Qed.
Lemma elem_size_range : forall e, 2 <= elem_size e <= 8.
Proof. intros e. unfold elem_size. destruct (e =? 0); [lia |]. destruct (e =? 3); lia. Qed.
Lemma sizes_fit : forall e n, 0 <= n <= 16384 -> u32 (u32 (elem_size e * n) * n) = elem_size e * n * n /\ u32 (elem_size e * n) = elem_size e * n /\
  u32 (n * n) = n * n /\ u32 (n * n * 4) = n * n * 4 /\ u32 (n * 4) = n * 4.
Proof.
  intros e n H. pose proof (elem_size_range e) as R. assert (Q : 0 <= n * n <= 268435456) by nia.
  assert (Q1 : 0 <= elem_size e * n <= 131072) by nia. assert (Q2 : 0 <= elem_size e * n * n <= 2147483648) by nia.
  rewrite (u32_id (elem_size e * n)) by (change (2 ^ 32) with 4294967296; lia).
  rewrite (u32_id (elem_size e * n * n)) by (change (2 ^ 32) with 4294967296; lia).
  rewrite (u32_id (n * n)) by (change (2 ^ 32) with 4294967296; lia). rewrite (u32_id (n * n * 4)) by (change (2 ^ 32) with 4294967296; lia).
  rewrite (u32_id (n * 4)) by (change (2 ^ 32) with 4294967296; lia). conj.
Qed.

Theorem read_mco_safe : forall n t seg, wf n t -> Forall is_byte seg -> Z.of_nat n <= 16384 ->
  read_mco t (Z.of_nat n) seg = Some None \/ exists t', read_mco t (Z.of_nat n) seg = Some (Some t') /\ wf n t' /\ nmcc t' = nmcc t.
Proof.
  intros n t seg W B Hn. unfold read_mco, len.
  destruct (Z.ltb_spec (Z.of_nat (length seg)) 1); [left; reflexivity |].
  destruct (rd_some 1 seg ltac:(lia)) as (k & d & E1). rewrite E1. destruct (skip_bytes _ _ _ _ B E1) as (B1 & L1 & Hk).
  destruct (Z.ltb_spec 1 k); [right; exists t; split; [reflexivity | split; [exact W | reflexivity]] |].
  destruct (Z.eqb_spec (Z.of_nat (length seg)) (k + 1)); cbn [negb]; [| left; reflexivity].
  rewrite Nat2Z.id. destruct (set_shifts_wf n t (repeat 0 n) W (repeat_length _ _)) as (t1 & E2 & W1 & T1). rewrite E2.
  assert (M1 : nmcc t1 = nmcc t) by (rewrite T1; reflexivity). clear T1.
  assert (W2 : wf n (set_matrix t1 None)) by (apply set_matrix_wf; [exact W1 | exact I]).
  set (t2 := set_matrix t1 None) in *. assert (M2 : nmcc t2 = nmcc t) by exact M1. clearbody t2. clear t1 E2 W1 M1.
  destruct (Z.eqb_spec k 0); [right; exists t2; split; [reflexivity | split; assumption] |].
  destruct (rd_some 1 d ltac:(lia)) as (ix & d2 & E3). rewrite E3. unfold add_mct.
  destruct (Nat.eqb_spec (nmcc t2) 0) as [Z0 | Z0]; [right; exists t2; split; [reflexivity | split; assumption] |].
  assert (Q := w_mcc _ _ W2). destruct (nth_error (mccs t2) 0) as [c |] eqn:Ec; [| apply nth_error_None in Ec; lia].
  assert (C0 : crec_ok (gen t2) (nmct t2) c).
  { assert (Cr := w_crecs _ _ W2). rewrite Forall_forall in Cr. apply Cr. apply (nth_error_In _ 0). rewrite nth_first by lia. exact Ec. }
  destruct (c_index c =? ix); cbn [negb]; [| right; exists t2; split; [reflexivity | split; assumption]].
  destruct (c_nb c =? Z.of_nat n); cbn [negb]; [| right; exists t2; split; [reflexivity | split; assumption]].
  destruct C0 as (_ & Cd & Co).
  assert (AD : add_deco t2 (Z.of_nat n) (c_deco c) = Some None \/ exists t3, add_deco t2 (Z.of_nat n) (c_deco c) = Some (Some t3) /\ wf n t3 /\ nmcc t3 = nmcc t /\
    gen t3 = gen t2 /\ nmct t3 = nmct t2).
  { destruct (c_deco c) as [[h j] |]; cbn [add_deco]; [| right; exists t2; conj; try exact W2; exact M2].
    destruct (deref_ok n t2 h j W2 Cd) as (r & Er & Rr). rewrite Er. destruct (sizes_fit (r_elem r) (Z.of_nat n) ltac:(lia)) as (S1 & _ & S3 & S4 & _).
    rewrite S1, S3. cbv zeta. rewrite S4. unfold len. destruct (Z.eqb_spec (Z.of_nat (length (rec_bytes r))) (elem_size (r_elem r) * Z.of_nat n * Z.of_nat n)) as [E | E]; cbn [negb]; [| left; reflexivity].
    destruct (Z.of_nat n * Z.of_nat n * 4 =? 0); [left; reflexivity |].
    destruct (Z.ltb_spec (Z.of_nat n * Z.of_nat n * 4) (4 * (Z.of_nat n * Z.of_nat n))); [lia |].
    destruct (elems_safe _ _ (Z.to_nat (Z.of_nat n * Z.of_nat n)) (rec_bytes r) (takes_float (r_elem r) (proj2 (proj2 Rr)))) as (m & Em & Lm).
    { apply Nat2Z.inj_le. rewrite E. rewrite Nat2Z.inj_mul, !Z2Nat.id; [lia | pose proof (elem_size_range (r_elem r)); lia | lia]. }
    rewrite Em. right. eexists. split; [reflexivity |]. split; [apply set_matrix_wf; [exact W2 | rewrite Lm; lia] |]. conj. exact M2. }
  destruct AD as [-> | (t3 & -> & W3 & M3 & G3 & K3)]; [left; reflexivity |].
  destruct (c_off c) as [[h j] |]; cbn [add_off]; [| right; exists t3; split; [reflexivity | split; assumption]].
  rewrite <- G3, <- K3 in Co. destruct (deref_ok n t3 h j W3 Co) as (r & Er & Rr). rewrite Er.
  destruct (sizes_fit (r_elem r) (Z.of_nat n) ltac:(lia)) as (_ & S2 & _ & _ & S5). rewrite S2, S5. unfold len.
  destruct (Z.eqb_spec (Z.of_nat (length (rec_bytes r))) (elem_size (r_elem r) * Z.of_nat n)) as [E | E]; cbn [negb]; [| left; reflexivity].
  destruct (Z.of_nat n * 4 =? 0); [left; reflexivity |].
  destruct (Z.ltb_spec (Z.of_nat n * 4) (4 * Z.of_nat n)); [lia |]. rewrite Nat2Z.id.
  destruct (elems_safe _ _ n (rec_bytes r) (takes_int (r_elem r) (proj2 (proj2 Rr)))) as (m & Em & Lm).
  { apply Nat2Z.inj_le. rewrite E. rewrite Nat2Z.inj_mul, !Z2Nat.id; [lia | pose proof (elem_size_range (r_elem r)); lia]. }
  rewrite Em. destruct (set_shifts_wf n t3 m W3 Lm) as (t4 & E4 & W4 & T4). rewrite E4. right. exists t4. split; [reflexivity |]. split; [exact W4 |].
  rewrite T4. exact M3.
Qed.

(** ** CBD *)
Lemma read_defs_safe : forall n d, (n <= length d)%nat -> Forall is_byte d ->
  read_defs n d = Some None \/ exists l, read_defs n d = Some (Some l) /\ length l = n.
Proof.
  induction n as [| n IH]; intros d H B; cbn [read_defs].
  - right. exists []. split; reflexivity.
  - destruct (rd_some 1 d ltac:(lia)) as (v & r & E). rewrite E. destruct (skip_bytes _ _ _ _ B E) as (B1 & L1 & _).
    destruct (31 <? Z.land v 127 + 1); [left; reflexivity |].
    destruct (IH r ltac:(lia) B1) as [-> | (l & -> & L)]; [left; reflexivity |]. right. eexists. split; [reflexivity |]. cbn [length]. lia.
Qed.
Theorem read_cbd_safe : forall comps seg, Forall is_byte seg -> len comps <= 16384 ->
  read_cbd comps seg = Some None \/ exists l, read_cbd comps seg = Some (Some l) /\ length l = length comps.
Proof.
  intros comps seg B H. unfold read_cbd, len in *. rewrite u32_id by (change (2 ^ 32) with 4294967296; lia).
  destruct (Z.eqb_spec (Z.of_nat (length seg)) (Z.of_nat (length comps) + 2)); cbn [negb]; [| left; reflexivity].
  destruct (rd_some 2 seg ltac:(lia)) as (v & d & E). rewrite E. destruct (skip_bytes _ _ _ _ B E) as (B1 & L1 & _).
  destruct (v =? Z.of_nat (length comps)); cbn [negb]; [| left; reflexivity]. apply read_defs_safe; [lia | exact B1].
Qed.

(** ** All of them *)
Lemma segment_safe : forall t comps m seg, wf (length comps) t -> Forall is_byte seg -> len seg < 65536 -> len comps <= 16384 ->
  segment (t, comps) m seg = Some None \/ exists t' comps', segment (t, comps) m seg = Some (Some (t', comps')) /\ length comps' = length comps /\ wf (length comps) t' /\
    (m <> MCC -> nmcc t' = nmcc t).
Proof.
  intros t comps m seg W B Hs Hc. unfold segment. cbn [fst snd].
  destruct (m =? CBD).
  { destruct (read_cbd_safe comps seg B Hc) as [-> | (l & -> & L)]; [left; reflexivity |]. right. exists t, l. conj; try exact W. exact L. }
  destruct (m =? MCT).
  { destruct (read_mct_safe (length comps) t seg W B) as [-> | (t' & -> & W' & M)]; [left; reflexivity |]. right. exists t', comps. conj; try exact W'. intros _. exact M. }
  destruct (Z.eqb_spec m MCC).
  { destruct (read_mcc_safe (length comps) t seg W B ltac:(change (2 ^ 32) with 4294967296; lia)) as [-> | (t' & -> & W')]; [left; reflexivity |].
    right. exists t', comps. conj; try exact W'. intros N. contradiction. }
  destruct (m =? MCO).
  { unfold len in *. destruct (read_mco_safe (length comps) t seg W B Hc) as [-> | (t' & -> & W' & M)]; [left; reflexivity |].
    right. exists t', comps. conj; try exact W'. intros _. exact M. }
  right. exists t, comps. conj; apply W.
Qed.
Lemma segments_safe : forall l t comps, wf (length comps) t -> Forall (fun s => Forall is_byte (snd s) /\ len (snd s) < 65536) l -> len comps <= 16384 ->
  segments (t, comps) l = Some None \/ exists t' comps', segments (t, comps) l = Some (Some (t', comps')) /\ length comps' = length comps /\ wf (length comps) t' /\
    (Forall (fun s => fst s <> MCC) l -> nmcc t' = nmcc t).
Proof.
  induction l as [| [m seg] l IH]; intros t comps W F H; cbn [segments].
  - right. exists t, comps. conj; apply W.
  - inversion F as [| ? ? [F1 F2] F3]; subst. cbn [snd] in *.
    destruct (segment_safe t comps m seg W F1 F2 H) as [-> | (t1 & c1 & -> & L1 & W1 & M1)]; [left; reflexivity |].
    rewrite <- L1 in W1 |- *. destruct (IH t1 c1 W1 F3 ltac:(unfold len in *; rewrite L1; exact H)) as [-> | (t2 & c2 & -> & L2 & W2 & M2)]; [left; reflexivity |].
    right. exists t2, c2. conj; try exact W2; try exact L2. intros K. inversion K; subst. rewrite M2 by assumption. apply M1. assumption.
Qed.

(** ** The copy for a tile *)
Lemma retarget_all_ok : forall g k l, Forall (fun c => ptr_ok g k (c_deco c) /\ ptr_ok g k (c_off c)) l ->
  exists l', retarget_all g l = Some l' /\ length l' = length l /\ map c_index l' = map c_index l /\
    (forall i c, nth_error l i = Some c -> exists c', nth_error l' i = Some c' /\ ptr_ok 0 k (c_deco c') /\ ptr_ok 0 k (c_off c') /\ c_index c' = c_index c /\ (no_ptr c -> no_ptr c')).
Proof.
  intros g k. induction l as [| c l IH]; intros F; cbn [retarget_all].
  - exists []. conj. intros [| i] c H; discriminate.
  - inversion F as [| ? ? [Fd Fo] Fl]; subst. destruct (IH Fl) as (l' & E & L & M & N).
    assert (R : forall p, ptr_ok g k p -> exists q, retarget g p = Some q /\ ptr_ok 0 k q /\ (p = None -> q = None)).
    { intros [[h j] |] Q; cbn [retarget ptr_ok] in *; [| exists None; conj; exact I].
      destruct Q as [-> Q]. rewrite Nat.eqb_refl. exists (Some (0%nat, j)). conj; [split; [reflexivity | exact Q] | discriminate]. }
    destruct (R _ Fd) as (d & Ed & Pd & Nd). destruct (R _ Fo) as (o & Eo & Po & No). rewrite Ed, Eo, E.
    eexists. split; [reflexivity |]. cbn [length map c_index]. split; [lia |]. split; [f_equal; exact M |].
    intros [| i] x H; cbn [nth_error] in *.
    + injection H as <-. eexists. split; [reflexivity |]. cbn [c_deco c_off c_index]. conj; try assumption; intros [X Y]; split; auto.
    + apply N. exact H.
Qed.
Lemma Forall_nth : forall A (P : A -> Prop) l, (forall i x, nth_error l i = Some x -> P x) -> Forall P l.
Proof. intros A P l H. apply Forall_forall. intros x X. apply In_nth_error in X. destruct X as (i & X). exact (H i x X). Qed.
Lemma nth_skip : forall A (l : list A) k i, nth_error (skipn k l) i = nth_error l (k + i).
Proof. intros A l k. revert l. induction k as [| k IH]; intros [| a l] i; cbn [skipn Nat.add nth_error]; try reflexivity; [destruct i; reflexivity | apply IH]. Qed.

Theorem copy_safe : forall n t, wf n t -> copy_default t = Some None \/ exists t', copy_default t = Some (Some t') /\ wf n t'.
Proof.
  intros n t W. destruct W as [A B C D E F G H I]. unfold copy_default.
  destruct (Nat.ltb_spec (length (mcts t)) (maxmct t)); [lia |]. destruct (Nat.ltb_spec (length (mccs t)) (maxmcc t)); [lia |].
  destruct (Nat.ltb_spec (length (mcts t)) (nmct t)); [lia |]. cbn [orb].
  destruct ((maxmct t =? 0)%nat || (maxmcc t =? 0)%nat); [left; reflexivity |].
  destruct (retarget_all_ok (gen t) (nmct t) (firstn (maxmcc t) (mccs t))) as (l & El & L & M & N).
  { apply Forall_nth. intros i c Hc. destruct (Nat.lt_ge_cases i (nmcc t)) as [Q | Q].
    - rewrite Forall_forall in E. assert (Lm : (i < maxmcc t)%nat) by lia. rewrite nth_first in Hc by exact Lm.
      assert (X : In c (firstn (nmcc t) (mccs t))) by (apply (nth_error_In _ i); rewrite nth_first by exact Q; exact Hc). apply E in X. split; apply X.
    - assert (Lm : (i < length (firstn (maxmcc t) (mccs t)))%nat) by (apply nth_error_Some; rewrite Hc; discriminate). rewrite firstn_length in Lm.
      rewrite nth_first in Hc by lia. rewrite Forall_forall in F.
      assert (X : In c (skipn (nmcc t) (mccs t))) by (apply (nth_error_In _ (i - nmcc t)); rewrite nth_skip; replace (nmcc t + (i - nmcc t))%nat with i by lia; exact Hc).
      apply F in X. destruct X as [-> ->]. split; exact Logic.I. }
  rewrite El. rewrite firstn_length in L. right. eexists. split; [reflexivity |].
  assert (NB : forall i c', nth_error l i = Some c' -> exists c, nth_error (firstn (maxmcc t) (mccs t)) i = Some c).
  { intros i c' Hc. assert (i < length l)%nat by (apply nth_error_Some; rewrite Hc; discriminate).
    destruct (nth_error (firstn (maxmcc t) (mccs t)) i) as [c |] eqn:X; [eauto |]. apply nth_error_None in X. rewrite firstn_length in X. lia. }
  constructor; cbn [gen mcts nmct maxmct mccs nmcc maxmcc matrix shifts]; try assumption.
  - rewrite firstn_length. lia.
  - rewrite L. lia.
  - rewrite firstn_firstn. replace (Nat.min (nmct t) (maxmct t)) with (nmct t) by lia. exact C.
  - rewrite firstn_firstn. replace (Nat.min (nmct t) (maxmct t)) with (nmct t) by lia. exact D.
  - apply Forall_nth. intros i c' Hc. assert (Li : (i < length (firstn (nmcc t) l))%nat) by (apply nth_error_Some; rewrite Hc; discriminate).
    rewrite firstn_length in Li. rewrite nth_first in Hc by lia. destruct (NB i c' Hc) as (c & Ec). destruct (N i c Ec) as (c2 & E2 & P1 & P2 & P3 & _).
    rewrite Hc in E2. injection E2 as <-. split; [| split; assumption]. rewrite P3. rewrite nth_first in Ec by lia. rewrite Forall_forall in E.
    assert (X : In c (firstn (nmcc t) (mccs t))) by (apply (nth_error_In _ i); rewrite nth_first by lia; exact Ec). apply E in X. apply X.
  - apply Forall_nth. intros i c' Hc. rewrite nth_skip in Hc. destruct (NB _ c' Hc) as (c & Ec). destruct (N _ c Ec) as (c2 & E2 & _ & _ & _ & P).
    rewrite Hc in E2. injection E2 as <-. apply P.
    assert (Lm : (nmcc t + i < length (firstn (maxmcc t) (mccs t)))%nat) by (apply nth_error_Some; rewrite Ec; discriminate). rewrite firstn_length in Lm.
    rewrite nth_first in Ec by lia. rewrite Forall_forall in F. apply F. apply (nth_error_In _ i). rewrite nth_skip. exact Ec.
  - rewrite <- firstn_map, M. rewrite firstn_map, firstn_firstn. replace (Nat.min (nmcc t) (maxmcc t)) with (nmcc t) by lia. exact G.
Qed.
