(** C73: the tables of VLC code words are prefix codes, and their entries make sense. *)

From Coq Require Import ZArith List Bool Lia.
From Verif Require Import HtLuts.
Import ListNotations.
Local Open Scope Z_scope.

(** What the seven next bits [w] stand for in context [c]. *)
Definition entry (tbl : list Z) (c w : Z) : Z := nth (Z.to_nat (128 * c + w)) tbl 0.
Definition e_len (e : Z) : Z := e mod 8.
Definition e_content (e : Z) : Z := e / 8.
Definition e_uoff (e : Z) : bool := Z.testbit e 3.
Definition e_sig (e : Z) (n : Z) : bool := Z.testbit e (4 + n).
Definition e_e1 (e : Z) (n : Z) : bool := Z.testbit e (8 + n).
Definition e_ek (e : Z) (n : Z) : bool := Z.testbit e (12 + n).

(** ** Checks that can be computed *)

Definition upto (n : nat) : list Z := map Z.of_nat (seq 0 n).
Lemma upto_in : forall n x, 0 <= x < Z.of_nat n -> In x (upto n).
Proof. intros n x H. unfold upto. rewrite <- (Z2Nat.id x) by lia. apply in_map, in_seq. lia. Qed.

Definition entry_ok (c w e : Z) : bool :=
  (1 <=? e_len e) && (0 <=? e) && (e <? 65536) &&
  forallb (fun n => (implb (e_e1 e n) (e_ek e n)) && (implb (e_ek e n) (e_sig e n && e_uoff e))) (upto 4) &&
  implb (e_uoff e || (c =? 0)) (existsb (e_sig e) (upto 4)).
(** The entries of context [c]. *)
Definition row (tbl : list Z) (c : Z) : list Z := firstn 128 (skipn (Z.to_nat (128 * c)) tbl).
Definition at_row (r : list Z) (w : Z) : Z := nth (Z.to_nat w) r 0.
Definition low_ok (r : list Z) (w : Z) : bool := let e := at_row r w in at_row r (w mod 2 ^ e_len e) =? e.
Definition high_ok (r : list Z) (w : Z) : bool :=
  let e := at_row r w in
  implb (w <? 2 ^ e_len e) (forallb (fun j => at_row r (w + j * 2 ^ e_len e) =? e) (upto (Z.to_nat (2 ^ (7 - e_len e))))).
Definition code_words (r : list Z) : list Z := filter (fun w => w <? 2 ^ e_len (at_row r w)) (upto 128).
Fixpoint distinct (l : list Z) : bool := match l with [] => true | x :: l => forallb (fun y => negb (x =? y)) l && distinct l end.
Definition row_ok (tbl : list Z) (c : Z) : bool :=
  let r := row tbl c in
  (length r =? 128)%nat && forallb (fun w => entry_ok c w (at_row r w) && low_ok r w && high_ok r w) (upto 128) && distinct (map (fun w => e_content (at_row r w)) (code_words r)).

Lemma tables_ok : forall tbl, tbl = vlc_tbl0 \/ tbl = vlc_tbl1 -> length tbl = 1024%nat /\ forallb (row_ok tbl) (upto 8) = true.
Proof. intros tbl [-> | ->]; (split; [reflexivity | vm_compute; reflexivity]). Qed.

Lemma distinct_ok : forall l, distinct l = true -> NoDup l.
Proof.
  induction l as [| x l IH]; intros D; [constructor |]. cbn [distinct] in D. apply andb_prop in D. destruct D as (D1 & D2). constructor; [| apply IH, D2].
  intros I. rewrite forallb_forall in D1. specialize (D1 x I). rewrite Z.eqb_refl in D1. discriminate.
Qed.
Lemma map_once : forall (f : Z -> Z) l x y, NoDup (map f l) -> In x l -> In y l -> f x = f y -> x = y.
Proof.
  intros f. induction l as [| z l IH]; intros x y N X Y E; [contradiction |]. cbn [map] in N. inversion N as [| ? ? N1 N2]; subst.
  destruct X as [<- | X], Y as [<- | Y]; [reflexivity | | | apply IH; assumption].
  - exfalso. apply N1. rewrite E. apply in_map, Y.
  - exfalso. apply N1. rewrite <- E. apply in_map, X.
Qed.
Lemma nth_row : forall tbl c w, 0 <= c -> 0 <= w < 128 -> entry tbl c w = at_row (row tbl c) w.
Proof.
  intros tbl c w C W. unfold entry, at_row, row. assert (T : forall n m (l : list Z) k, (k < n)%nat -> nth k (firstn n (skipn m l)) 0 = nth (m + k) l 0).
  { clear. intros n m l k K. revert l. induction m as [| m IH]; intros l; [| destruct l as [| x l]; [cbn; rewrite firstn_nil; destruct k; reflexivity | apply IH]].
    cbn [skipn plus]. revert n l K. induction k as [| k IH]; intros n l K; destruct n as [| n]; try lia; destruct l as [| x l]; try reflexivity. apply IH. lia. }
  rewrite T by (clear - W; lia). f_equal. clear - C W. lia.
Qed.

Section Facts.
Variables (tbl : list Z) (c : Z).
Hypothesis T : tbl = vlc_tbl0 \/ tbl = vlc_tbl1.
Hypothesis C : 0 <= c < 8.
Let r := row tbl c.

Lemma row_facts : row_ok tbl c = true.
Proof. destruct (tables_ok tbl T) as (_ & F). rewrite forallb_forall in F. apply F, upto_in. exact C. Qed.
Lemma word_facts : forall w, 0 <= w < 128 -> entry_ok c w (at_row r w) = true /\ low_ok r w = true /\ high_ok r w = true.
Proof.
  intros w W. pose proof row_facts as F. unfold row_ok in F. fold r in F. apply andb_prop in F. destruct F as (F & _). apply andb_prop in F. destruct F as (_ & F).
  rewrite forallb_forall in F. specialize (F w (upto_in 128 w W)). apply andb_prop in F. destruct F as (F & F3). apply andb_prop in F. tauto.
Qed.
Lemma len_range : forall w, 0 <= w < 128 -> 1 <= e_len (at_row r w) <= 7.
Proof.
  intros w W. destruct (word_facts w W) as (F & _). unfold entry_ok in F. repeat (apply andb_prop in F; destruct F as (F & ?)). apply Z.leb_le in F.
  pose proof (Z.mod_pos_bound (at_row r w) 8 ltac:(lia)). unfold e_len in *. lia.
Qed.
Lemma same_word : forall w w', 0 <= w < 128 -> 0 <= w' < 128 -> w' mod 2 ^ e_len (at_row r w) = w mod 2 ^ e_len (at_row r w) -> at_row r w' = at_row r w.
Proof.
  intros w w' W W' E. destruct (word_facts w W) as (_ & L & _). pose proof (len_range w W) as R. unfold low_ok in L. apply Z.eqb_eq in L. set (n := e_len (at_row r w)) in *.
  assert (P : 0 < 2 ^ n) by (apply Z.pow_pos_nonneg; lia). pose proof (Z.mod_pos_bound w (2 ^ n) P) as M. assert (K : 2 ^ n * 2 ^ (7 - n) = 128) by (rewrite <- Z.pow_add_r by lia; replace (n + (7 - n)) with 7 by lia; reflexivity).
  pose proof (Z.mod_le w (2 ^ n) ltac:(lia) P) as Le.
  destruct (word_facts (w mod 2 ^ n) ltac:(lia)) as (_ & _ & H). unfold high_ok in H. rewrite L in H. fold n in H. destruct (Z.ltb_spec (w mod 2 ^ n) (2 ^ n)); [| lia]. cbn [implb] in H.
  rewrite forallb_forall in H. specialize (H (w' / 2 ^ n)). assert (Q : 0 < 2 ^ (7 - n)) by (apply Z.pow_pos_nonneg; lia).
  assert (I : In (w' / 2 ^ n) (upto (Z.to_nat (2 ^ (7 - n))))).
  { apply upto_in. rewrite Z2Nat.id by lia. split; [apply Z.div_pos; lia |]. apply Z.div_lt_upper_bound; [lia |]. rewrite K. lia. }
  specialize (H I). apply Z.eqb_eq in H. rewrite <- H. f_equal. pose proof (Z.div_mod w' (2 ^ n) ltac:(lia)) as D. rewrite E in D. lia.
Qed.
End Facts.

(** C73. In every context of either table the code words are those of a prefix
    code: between one and seven bits, and whatever comes after a code word does
    not change what it stands for. *)
Theorem c73_prefix : forall tbl c w, tbl = vlc_tbl0 \/ tbl = vlc_tbl1 -> 0 <= c < 8 -> 0 <= w < 128 ->
  1 <= e_len (entry tbl c w) <= 7 /\
  forall w', 0 <= w' < 128 -> w' mod 2 ^ e_len (entry tbl c w) = w mod 2 ^ e_len (entry tbl c w) -> entry tbl c w' = entry tbl c w.
Proof.
  intros tbl c w T C W. split; [rewrite nth_row by lia; apply len_range; assumption |].
  intros w' W' E. rewrite nth_row in * by lia. rewrite nth_row by lia. apply same_word; assumption.
Qed.
(** Two code words of a context do not stand for the same. *)
Theorem c73_once : forall tbl c w w', tbl = vlc_tbl0 \/ tbl = vlc_tbl1 -> 0 <= c < 8 -> 0 <= w < 128 -> 0 <= w' < 128 ->
  e_content (entry tbl c w) = e_content (entry tbl c w') ->
  e_len (entry tbl c w) = e_len (entry tbl c w') /\ w mod 2 ^ e_len (entry tbl c w) = w' mod 2 ^ e_len (entry tbl c w').
Proof.
  intros tbl c w w' T C W W' E. rewrite !nth_row in * by lia. set (r := row tbl c) in *.
  assert (K : forall w, 0 <= w < 128 -> In (w mod 2 ^ e_len (at_row r w)) (code_words r) /\ at_row r (w mod 2 ^ e_len (at_row r w)) = at_row r w).
  { clear - T C. intros w W. destruct (word_facts tbl c T C w W) as (_ & L & _). fold r in L. unfold low_ok in L. apply Z.eqb_eq in L. split; [| exact L].
    pose proof (len_range tbl c T C w W) as R. fold r in R. assert (P : 0 < 2 ^ e_len (at_row r w)) by (apply Z.pow_pos_nonneg; lia).
    pose proof (Z.mod_pos_bound w _ P) as M. pose proof (Z.mod_le w _ (proj1 W) P) as Le. apply filter_In. split; [apply upto_in; lia |]. rewrite L. apply Z.ltb_lt. lia. }
  destruct (K w W) as (K1 & K2). destruct (K w' W') as (K1' & K2').
  pose proof (row_facts tbl c T C) as F. unfold row_ok in F. fold r in F. apply andb_prop in F. destruct F as (_ & F). apply distinct_ok in F.
  pose proof (map_once _ _ _ _ F K1 K1') as O. cbn beta in O. rewrite K2, K2' in O. specialize (O E). split; [| exact O].
  rewrite <- K2, <- K2', O. reflexivity.
Qed.
(** [e_1] only where [e_k], [e_k] only for a significant sample and if u is coded;
    u is coded only for a quad with a significant sample, and in context 0, where
    an event says that there is one, there is one. *)
Theorem c73_sense : forall tbl c w n, tbl = vlc_tbl0 \/ tbl = vlc_tbl1 -> 0 <= c < 8 -> 0 <= w < 128 -> 0 <= n < 4 ->
  let e := entry tbl c w in
  0 <= e < 65536 /\ (e_e1 e n = true -> e_ek e n = true) /\ (e_ek e n = true -> e_sig e n = true /\ e_uoff e = true) /\
  (e_uoff e = true \/ c = 0 -> exists m, 0 <= m < 4 /\ e_sig e m = true).
Proof.
  intros tbl c w n T C W N. cbn zeta. rewrite nth_row by lia. destruct (word_facts tbl c T C w W) as (F & _). set (e := at_row (row tbl c) w) in *. clearbody e. unfold entry_ok in F.
  apply andb_prop in F. destruct F as (F & F5). apply andb_prop in F. destruct F as (F & F4). apply andb_prop in F. destruct F as (F & F3). apply andb_prop in F. destruct F as (F1 & F2).
  apply Z.leb_le in F2. apply Z.ltb_lt in F3. split; [lia |]. rewrite forallb_forall in F4. specialize (F4 n (upto_in 4 n N)). apply andb_prop in F4. destruct F4 as (F4 & F6).
  split; [intros E; rewrite E in F4; exact F4 |]. split; [intros E; rewrite E in F6; apply andb_prop in F6; exact F6 |].
  intros E. assert (X : e_uoff e || (c =? 0) = true) by (destruct E as [E | E]; [rewrite E; reflexivity | rewrite E, orb_true_r; reflexivity]). rewrite X in F5. cbn [implb] in F5.
  apply existsb_exists in F5. destruct F5 as (m & M1 & M2). exists m. split; [| exact M2]. unfold upto in M1. apply in_map_iff in M1. destruct M1 as (k & <- & M1). apply in_seq in M1. lia.
Qed.

(** In context 0 of the first table the bits 000 stand for sample 1 alone. *)
Example c73_entry : e_len (entry vlc_tbl0 0 3) = 6 /\ e_len (entry vlc_tbl0 0 0) = 3 /\ e_sig (entry vlc_tbl0 0 0) 1 = true /\ e_sig (entry vlc_tbl0 0 0) 0 = false.
Proof. repeat split; reflexivity. Qed.

Print Assumptions c73_prefix.
Print Assumptions c73_once.
Print Assumptions c73_sense.
