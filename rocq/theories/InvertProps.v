(** C34: matrix inversion never succeeds. *)

From Coq Require Import ZArith List Bool Lia.
From Verif Require Import InvertModel.
Import ListNotations.
Local Open Scope Z_scope.

Section Props.
  Variables (F : Type) (zero one : F).
  Variables (fabs : F -> F) (fgt feq : F -> F -> bool) (fadd fsub fmul fdiv : F -> F -> F).

  Lemma get_out : forall (l : list F) i, Z.of_nat (length l) <= i -> get l i = Panic.
  Proof. intros l i H. unfold get. destruct (Z.ltb_spec i (Z.of_nat (length l))); [lia | reflexivity]. Qed.

  Lemma backward_panics : forall fuel n line begin_ dest gen matrix inter result, (1 <= fuel)%nat ->
    Z.of_nat fuel <= n <= 16384 -> Z.of_nat (length matrix) = n * n ->
    line = usize (n * n - n - 1 - (n - Z.of_nat fuel) * (n + 1)) ->
    backward F zero fadd fsub fmul fdiv fuel n (Z.of_nat fuel - 1) line begin_ dest gen matrix inter result = Panic.
  Proof.
    induction fuel as [| fuel IH]; intros n line begin_ dest gen matrix inter result Hf Hn Hl El; [lia |].
    cbn [backward]. destruct fuel as [| fuel].
    - rewrite get_out; [reflexivity |]. rewrite El. unfold usize.
      replace (n * n - n - 1 - (n - Z.of_nat 1) * (n + 1)) with (2 ^ 64 - n + (-1) * 2 ^ 64) by lia.
      rewrite Z.mod_add, Z.mod_small by lia. nia.
    - destruct (get matrix line); [reflexivity |]. cbn [bind].
      match goal with |- bind ?x _ = _ => destruct x; [reflexivity |] end. cbn [bind].
      destruct (get inter gen); [reflexivity |]. cbn [bind].
      match goal with |- bind ?x _ = _ => destruct x; [reflexivity |] end. cbn [bind].
      replace (Z.of_nat (S (S fuel)) - 1 - 1) with (Z.of_nat (S fuel) - 1) by lia.
      apply IH; [lia | lia | exact Hl |]. rewrite El. unfold usize. rewrite Zminus_mod_idemp_l. f_equal. lia.
  Qed.

  Lemma lup_solve_panics : forall n result matrix vector perm inter, 1 <= n <= 16384 -> Z.of_nat (length matrix) = n * n ->
    lup_solve F zero fadd fsub fmul fdiv n result matrix vector perm inter = Panic.
  Proof.
    intros n result matrix vector perm inter Hn Hl. unfold lup_solve.
    destruct (forward F zero fadd fsub fmul n matrix vector perm inter) as [| inter']; [reflexivity |]. cbn [bind].
    destruct (Z.eqb_spec n 0); [lia |].
    replace (n - 1) with (Z.of_nat (Z.to_nat n) - 1) at 1 by lia.
    apply backward_panics; [lia | lia | exact Hl |].
    rewrite Hl. unfold usize. rewrite Zminus_mod_idemp_l. f_equal. lia.
  Qed.

  Lemma slice_length : forall (l s : list F) a b, 0 <= a -> slice l a b = Ret s -> Z.of_nat (length s) = b - a.
  Proof.
    intros l s a b Ha. unfold slice. destruct (Z.leb_spec a b), (Z.leb_spec b (Z.of_nat (length l))); cbn [andb]; try discriminate.
    intros E. injection E as <-. rewrite firstn_length, skipn_length. lia.
  Qed.

  Lemma lup_invert_panics : forall n m perm dst s d w, 1 <= n <= 16384 ->
    lup_invert F zero one fadd fsub fmul fdiv n m perm dst s d w = Panic.
  Proof.
    intros n m perm dst s d w Hn. unfold lup_invert.
    replace (Z.to_nat n) with (S (Z.to_nat (n - 1))) by lia. cbn [loop].
    repeat (match goal with |- context [slice ?l ?a ?b] => destruct (slice l a b) eqn:?; [reflexivity |]; cbn [bind] end ||
            match goal with |- context [set ?l ?a ?b] => destruct (set l a b) eqn:?; [reflexivity |]; cbn [bind] end).
    match goal with H : slice m 0 _ = Ret ?mm |- _ => apply slice_length in H; [| lia];
      unfold usize in H; rewrite Z.mod_small in H by nia; rewrite (lup_solve_panics n _ mm) by lia end.
    reflexivity.
  Qed.

  Hypothesis zero_eq : feq zero zero = true.

  (** For no size and no matrix does the routine report success. *)
  Theorem c34_never_succeeds : forall n m dst d, 0 <= n <= 16384 ->
    matrix_inversion F zero one fabs fgt feq fadd fsub fmul fdiv n m dst <> Ret (true, d).
  Proof.
    intros n m dst d Hn. unfold matrix_inversion, lup_decompose.
    match goal with |- context [loop (Z.to_nat n) 0 ?f ?p] => destruct (loop (Z.to_nat n) 0 f p); [discriminate |] end. cbn [bind].
    destruct (Z.eq_dec n 0) as [-> | N].
    - assert (E : exists f, Z.to_nat (usize (0 - 1)) = S f).
      { exists (pred (Z.to_nat (usize (0 - 1)))). assert (0 < Z.to_nat (usize (0 - 1)))%nat; [| lia].
        change (usize (0 - 1)) with (2 ^ 64 - 1). lia. }
      destruct E as [f ->]. cbn [columns]. unfold pivot. change (Z.to_nat (0 - 0)) with 0%nat. cbn [loop bind].
      rewrite zero_eq. cbn [bind]. discriminate.
    - match goal with |- context [columns ?F ?a ?b ?c ?d ?e ?f ?g ?h ?i ?j ?k ?l ?mm ?o ?p ?q ?r] =>
        destruct (columns F a b c d e f g h i j k l mm o p q r) as [| [[m' perm'] |]] end; cbn [bind]; try discriminate.
      rewrite lup_invert_panics by lia. discriminate.
  Qed.

  (** A non-empty matrix that is not refused during the decomposition makes the
      program panic. *)
  Theorem c34_false_or_panic : forall n m dst, 1 <= n <= 16384 ->
    matrix_inversion F zero one fabs fgt feq fadd fsub fmul fdiv n m dst = Panic \/
    matrix_inversion F zero one fabs fgt feq fadd fsub fmul fdiv n m dst = Ret (false, dst).
  Proof.
    intros n m dst Hn. unfold matrix_inversion.
    match goal with |- context [lup_decompose ?F ?a ?b ?c ?d ?e ?f ?g ?h ?i ?j ?k] =>
      destruct (lup_decompose F a b c d e f g h i j k) as [| [[m' perm'] |]] end; cbn [bind]; auto.
    rewrite lup_invert_panics by lia. left. reflexivity.
  Qed.
End Props.

(** The float operations replaced by integer ones, for concrete runs. *)
Definition invz (n : Z) (m : list Z) :=
  matrix_inversion Z 0 1 Z.abs Z.gtb Z.eqb Z.add Z.sub Z.mul Z.div n m m.

(** The property as stated is false: the identity matrices are not inverted. *)
Theorem c34_regular_inverted_refuted :
  invz 1 [1] = Panic /\ invz 2 [1; 0; 0; 1] = Panic /\ invz 3 [1; 0; 0; 0; 1; 0; 0; 0; 1] = Panic.
Proof. vm_compute. auto. Qed.

(** Nor is a singular matrix always refused, or an exchange of rows possible. *)
Theorem c34_singular_refused_refuted : invz 1 [0] = Panic /\ invz 2 [0; 1; 1; 0] = Panic.
Proof. vm_compute. auto. Qed.

Example c34_example : invz 2 [0; 5; 0; 7] = Ret (false, [0; 5; 0; 7]).
Proof. vm_compute. reflexivity. Qed.

Print Assumptions c34_never_succeeds.
Print Assumptions c34_false_or_panic.
Print Assumptions c34_regular_inverted_refuted.
Print Assumptions c34_singular_refused_refuted.
