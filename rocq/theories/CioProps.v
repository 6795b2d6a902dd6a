(** C30: big-endian integers round trip. *)

From Coq Require Import ZArith List Bool Lia.
From Verif Require Import CioModel.
Import ListNotations.
Local Open Scope Z_scope.
Ltac Zify.zify_post_hook ::= Z.div_mod_to_equations.

Definition is_byte (b : Z) : Prop := 0 <= b < 256.

Lemma byte_eq : forall v i, 0 <= i -> byte v i = (v / 256 ^ i) mod 256.
Proof.
  intros v i Hi. unfold byte. rewrite Z.shiftr_div_pow2 by lia. change 255 with (Z.ones 8). rewrite Z.land_ones by lia.
  rewrite Z.pow_mul_r by lia. reflexivity.
Qed.

Lemma byte_range : forall v i, is_byte (byte v i).
Proof. intros. unfold byte. change 255 with (Z.ones 8). rewrite Z.land_ones by lia. apply Z.mod_pos_bound. reflexivity. Qed.

Lemma cat_byte : forall a b, is_byte b -> Z.lor (Z.shiftl a 8) b = a * 256 + b.
Proof.
  unfold is_byte. intros a b Hb. rewrite Z.shiftl_mul_pow2 by lia. change (2 ^ 8) with 256.
  assert (E : Z.land (a * 256) b = 0).
  { apply Z.bits_inj'. intros i Hi. rewrite Z.land_spec, Z.bits_0.
    destruct (Z_lt_le_dec i 8).
    - change 256 with (2 ^ 8). rewrite Z.mul_pow2_bits_low by lia. reflexivity.
    - rewrite (Z.bits_above_log2 b); [apply andb_false_r | lia |].
      destruct (Z.eq_dec b 0) as [-> | N]; [cbn; lia |].
      pose proof (proj1 (Z.log2_lt_pow2 b 8 ltac:(lia)) ltac:(lia)). lia. }
  rewrite <- Z.lxor_lor by exact E. symmetry. apply Z.add_nocarry_lxor. exact E.
Qed.

(** Big-endian value of a byte list. *)
Definition be_value (l : list Z) : Z := fold_left (fun a b => a * 256 + b) l 0.

Lemma from_be_value : forall l, Forall is_byte l -> from_be l = be_value l.
Proof.
  intros l. unfold from_be, be_value. generalize 0. induction l as [| b l IH]; intros a H; [reflexivity |].
  inversion H; subst. cbn [fold_left]. rewrite cat_byte by assumption. apply IH. assumption.
Qed.

(** The bytes of a number are its base-256 digits. *)
Lemma be_value_digits : forall n v, 0 <= v ->
  be_value (map (fun i => (v / 256 ^ Z.of_nat i) mod 256) (rev (seq 0 n))) = v mod 256 ^ Z.of_nat n.
Proof.
  intros n v Hv. induction n.
  - cbn. rewrite Z.mod_1_r. reflexivity.
  - assert (G : forall l a, fold_left (fun a b => a * 256 + b) l a = a * 256 ^ Z.of_nat (length l) + be_value l).
    { unfold be_value. induction l as [| b l IHl]; intros a; cbn [fold_left length]; [cbn; lia |].
      rewrite IHl. rewrite (IHl (0 * 256 + b)). replace (Z.of_nat (S (length l))) with (Z.of_nat (length l) + 1) by lia.
      rewrite Z.pow_add_r by lia. lia. }
    rewrite seq_S, rev_app_distr. cbn [rev app map]. unfold be_value at 1. cbn [fold_left Nat.add]. rewrite G.
    rewrite IHn, map_length, rev_length, seq_length. clear IHn G.
    replace (Z.of_nat (S n)) with (Z.of_nat n + 1) by lia. rewrite Z.pow_add_r by lia. change (256 ^ 1) with 256.
    assert (0 < 256 ^ Z.of_nat n) by (apply Z.pow_pos_nonneg; lia).
    rewrite Z.rem_mul_r by lia. lia.
Qed.

Lemma slice_overwrite : forall buf p bs buf', overwrite buf p bs = Some buf' ->
  slice buf' p (length bs) = Some bs /\ length buf' = length buf /\
  (forall i, (i < p \/ p + length bs <= i)%nat -> nth_error buf' i = nth_error buf i).
Proof.
  intros buf p bs buf'. unfold overwrite. destruct (Nat.leb_spec (p + length bs) (length buf)) as [L | L]; [| discriminate].
  intros E. injection E as <-.
  assert (Lp : length (firstn p buf) = p) by (rewrite firstn_length; lia).
  assert (Len : length (firstn p buf ++ bs ++ skipn (p + length bs) buf) = length buf)
    by (rewrite !app_length, skipn_length, Lp; lia).
  split; [| split].
  - unfold slice. rewrite Len. replace (p + length bs <=? length buf)%nat with true by (symmetry; apply Nat.leb_le; lia).
    rewrite skipn_app, Lp, skipn_all2 by lia. rewrite Nat.sub_diag. cbn [app skipn].
    rewrite firstn_app, Nat.sub_diag, firstn_all. cbn [firstn]. rewrite app_nil_r. reflexivity.
  - exact Len.
  - intros i [Hi | Hi].
    + rewrite nth_error_app1 by lia. rewrite <- (firstn_skipn p buf) at 2. rewrite nth_error_app1 by lia. reflexivity.
    + rewrite nth_error_app2 by lia. rewrite nth_error_app2 by lia. rewrite Lp.
      rewrite <- (firstn_skipn (p + length bs) buf) at 2.
      assert (Lq : length (firstn (p + length bs) buf) = (p + length bs)%nat) by (rewrite firstn_length; lia).
      rewrite nth_error_app2 by lia. rewrite Lq. f_equal. lia.
Qed.

Lemma overwrite_fits : forall buf p bs, (p + length bs <= length buf)%nat -> exists buf', overwrite buf p bs = Some buf'.
Proof. intros buf p bs H. unfold overwrite. rewrite (proj2 (Nat.leb_le _ _) H). eauto. Qed.

(** A value written in [n] bytes at any place of a buffer is read back modulo
    256^n, and the rest of the buffer is unchanged. *)
Theorem c30_round_trip : forall buf p v n, (1 <= n <= 4)%nat -> (p + n <= length buf)%nat -> 0 <= v < 2 ^ 32 ->
  exists buf', write_bytes buf p v n = Some buf' /\ read_bytes buf' p n = Some (v mod 256 ^ Z.of_nat n) /\
    length buf' = length buf /\ (forall i, (i < p \/ p + n <= i)%nat -> nth_error buf' i = nth_error buf i).
Proof.
  intros buf p v n Hn Hp Hv. unfold write_bytes, read_bytes.
  replace (count_ok n) with true by (symmetry; unfold count_ok; apply andb_true_iff; rewrite !Nat.leb_le; lia).
  assert (Ln : length (skipn (4 - n) (to_be4 v)) = n) by (rewrite skipn_length; cbn [length to_be4]; lia).
  destruct (overwrite_fits buf p (skipn (4 - n) (to_be4 v)) ltac:(lia)) as [buf' E]. exists buf'. split; [exact E |].
  destruct (slice_overwrite _ _ _ _ E) as (S & L & O). rewrite Ln in S, O. rewrite S. split; [| split; assumption].
  f_equal. assert (B : Forall is_byte (to_be4 v)) by (repeat constructor; apply byte_range).
  assert (Z0 : is_byte 0) by (unfold is_byte; lia).
  rewrite from_be_value by (apply Forall_app; split;
    [apply Forall_forall; intros x Hx; apply repeat_spec in Hx; subst; exact Z0 |
     rewrite <- (firstn_skipn (4 - n) (to_be4 v)) in B; apply Forall_app in B; apply B]).
  rewrite <- be_value_digits by lia. unfold to_be4. rewrite !byte_eq by lia.
  assert (N : n = 1%nat \/ n = 2%nat \/ n = 3%nat \/ n = 4%nat) by lia.
  destruct N as [-> | [-> | [-> | ->]]]; reflexivity.
Qed.

(** Most significant byte first. *)
Theorem c30_big_endian : forall buf p v n buf' i, (1 <= n <= 4)%nat -> 0 <= v -> write_bytes buf p v n = Some buf' -> (i < n)%nat ->
  nth_error buf' (p + i) = Some ((v / 256 ^ Z.of_nat (n - 1 - i)) mod 256).
Proof.
  intros buf p v n buf' i Hn Hv E Hi. unfold write_bytes in E.
  destruct (count_ok n); [| discriminate]. unfold overwrite in E.
  destruct (Nat.leb_spec (p + length (skipn (4 - n) (to_be4 v))) (length buf)) as [L | L]; [| discriminate]. injection E as <-.
  assert (Ln : length (skipn (4 - n) (to_be4 v)) = n) by (rewrite skipn_length; cbn [length to_be4]; lia).
  assert (Lp : length (firstn p buf) = p) by (rewrite firstn_length; lia).
  rewrite nth_error_app2 by lia. rewrite Lp. replace (p + i - p)%nat with i by lia.
  rewrite nth_error_app1 by (rewrite <- Ln in Hi; exact Hi).
  unfold to_be4. rewrite !byte_eq by lia.
  assert (N : n = 1%nat \/ n = 2%nat \/ n = 3%nat \/ n = 4%nat) by lia.
  destruct N as [-> | [-> | [-> | ->]]]; destruct i as [| [| [| [|]]]]; try lia; reflexivity.
Qed.

(** Byte counts other than 1 to 4 panic. *)
Theorem c30_bad_count : forall buf p v n, ~ (1 <= n <= 4)%nat -> write_bytes buf p v n = None /\ read_bytes buf p n = None.
Proof.
  intros buf p v n H. unfold write_bytes, read_bytes.
  replace (count_ok n) with false; [split; reflexivity |].
  symmetry. unfold count_ok. apply andb_false_iff. rewrite !Nat.leb_gt. lia.
Qed.

(** Floats keep their bit pattern. *)
Theorem c30_floats : forall buf p v,
  ((p + 4 <= length buf)%nat -> 0 <= v < 2 ^ 32 ->
   exists buf', write_float buf p v = Some buf' /\ read_float buf' p = Some v) /\
  ((p + 8 <= length buf)%nat -> 0 <= v < 2 ^ 64 ->
   exists buf', write_double buf p v = Some buf' /\ read_double buf' p = Some v).
Proof.
  intros buf p v. split; intros Hp Hv.
  - destruct (overwrite_fits buf p (to_be4 v) Hp) as [buf' E]. exists buf'. split; [exact E |].
    destruct (slice_overwrite _ _ _ _ E) as (S & _). unfold read_float. change 4%nat with (length (to_be4 v)). rewrite S.
    rewrite from_be_value by (repeat constructor; apply byte_range). f_equal.
    unfold to_be4. rewrite !byte_eq by lia. etransitivity; [apply (be_value_digits 4); lia |]. apply Z.mod_small. exact Hv.
  - destruct (overwrite_fits buf p (to_be8 v) Hp) as [buf' E]. exists buf'. split; [exact E |].
    destruct (slice_overwrite _ _ _ _ E) as (S & _). unfold read_double. change 8%nat with (length (to_be8 v)). rewrite S.
    rewrite from_be_value by (repeat constructor; apply byte_range). f_equal.
    unfold to_be8. rewrite !byte_eq by lia. etransitivity; [apply (be_value_digits 8); lia |]. apply Z.mod_small. exact Hv.
Qed.

Example c30_example :
  write_bytes [9; 9; 9; 9] 1 65361 2 = Some [9; 255; 81; 9] /\ read_bytes [9; 255; 81; 9] 1 2 = Some 65361 /\
  write_bytes [9; 9] 1 65361 2 = None /\ write_bytes [9; 9] 0 300 1 = Some [44; 9].
Proof. repeat split. Qed.

Print Assumptions c30_round_trip.
Print Assumptions c30_big_endian.
Print Assumptions c30_bad_count.
Print Assumptions c30_floats.
