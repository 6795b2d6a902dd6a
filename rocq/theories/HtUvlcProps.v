(** C71: u values from the bits of the VLC segment. *)

From Coq Require Import ZArith List Bool Lia.
From Verif Require Import Ints HtModel HtSpec HtBits.
Import ListNotations.
Local Open Scope Z_scope.

Lemma number_cons : forall b l, number (b :: l) = (if b then 1 else 0) + 2 * number l.
Proof. reflexivity. Qed.
Lemma number_shift : forall n l, Z.shiftr (number l) (Z.of_nat n) = number (skipn n l).
Proof.
  intros n l. apply Z.bits_inj'. intros j J. rewrite Z.shiftr_spec by lia. rewrite <- (Z2Nat.id j) by lia. rewrite <- Nat2Z.inj_add, !number_bit.
  destruct (Nat.lt_ge_cases n (length l)) as [K | K].
  - rewrite <- (firstn_skipn n l) at 1. rewrite app_nth2 by (rewrite firstn_length; lia). rewrite firstn_length. f_equal. lia.
  - rewrite skipn_all2 by lia. rewrite nth_overflow by lia. destruct (Z.to_nat j); reflexivity.
Qed.
Lemma number_mask : forall n l, Z.land (number l) (Z.shiftl 1 (Z.of_nat n) - 1) = number (firstn n l).
Proof.
  intros n l. replace (Z.shiftl 1 (Z.of_nat n) - 1) with (Z.ones (Z.of_nat n)) by (unfold Z.ones; lia). apply Z.bits_inj'. intros j J.
  rewrite Z.land_spec. rewrite <- (Z2Nat.id j) by lia. rewrite !number_bit. destruct (Nat.lt_ge_cases (Z.to_nat j) n) as [K | K].
  - rewrite Z.ones_spec_low, andb_true_r by lia. rewrite <- (firstn_skipn n l) at 1. destruct (Nat.lt_ge_cases (Z.to_nat j) (length (firstn n l))) as [Q | Q].
    + apply app_nth1. exact Q.
    + rewrite (firstn_skipn n l). rewrite firstn_length in Q. rewrite nth_overflow, nth_overflow; [reflexivity | rewrite firstn_length; lia | lia].
  - rewrite Z.ones_spec_high, andb_false_r by lia. symmetry. apply nth_overflow. rewrite firstn_length. lia.
Qed.
Lemma number_small : forall l, 0 <= number l < 2 ^ Z.of_nat (length l).
Proof.
  induction l as [| b l IH]; [cbn; lia |]. rewrite number_cons. cbn [length]. rewrite Nat2Z.inj_succ, Z.pow_succ_r by lia. destruct b; lia.
Qed.

Lemma look_ok : forall l, (3 <= length l)%nat -> exists p n k, u_prefix l = Some (p, n, skipn k l) /\ (1 <= k <= 3)%nat /\ (k <= length l)%nat /\
  pre_len (look_dec (number l)) = Z.of_nat k /\ suf_len (look_dec (number l)) = Z.of_nat n /\ Z.shiftr (look_dec (number l)) 5 = p /\ 1 <= p <= 5 /\ (n <= 5)%nat /\ (k = 3%nat <-> 2 < p).
Proof.
  intros [| b0 [| b1 [| b2 l]]] L; cbn [length] in L; try lia.
  assert (E : look_dec (number (b0 :: b1 :: b2 :: l)) = nth (Z.to_nat ((if b0 then 1 else 0) + 2 * ((if b1 then 1 else 0) + 2 * (if b2 then 1 else 0)))) uvlc_dec 0).
  { unfold look_dec. do 2 f_equal. change 7 with (Z.ones 3). rewrite Z.land_ones by lia. change (2 ^ 3) with 8. rewrite !number_cons.
    replace (_ + 2 * (_ + 2 * (_ + 2 * number l))) with ((if b0 then 1 else 0) + 2 * ((if b1 then 1 else 0) + 2 * (if b2 then 1 else 0)) + number l * 8) by (destruct b0, b1, b2; lia).
    rewrite Z.mod_add by lia. apply Z.mod_small. destruct b0, b1, b2; lia. }
  rewrite E. cbn [length]. destruct b0; [exists 1, 0%nat, 1%nat | destruct b1; [exists 2, 0%nat, 2%nat | destruct b2; [exists 3, 1%nat, 3%nat | exists 5, 5%nat, 3%nat]]].
  - destruct b1, b2; cbn [u_prefix skipn]; (split; [reflexivity |]; do 2 (split; [lia |]); do 3 (split; [reflexivity |]); lia).
  - destruct b2; cbn [u_prefix skipn]; (split; [reflexivity |]; do 2 (split; [lia |]); do 3 (split; [reflexivity |]); lia).
  - cbn [u_prefix skipn]; (split; [reflexivity |]; do 2 (split; [lia |]); do 3 (split; [reflexivity |]); lia).
  - cbn [u_prefix skipn]; (split; [reflexivity |]; do 2 (split; [lia |]); do 3 (split; [reflexivity |]); lia).
Qed.
Lemma number_short : forall n l, (n <= 5)%nat -> 0 <= number (firstn n l) < 32.
Proof.
  intros n l N. pose proof (number_small (firstn n l)) as R. assert (P : 2 ^ Z.of_nat (length (firstn n l)) <= 2 ^ 5) by (apply Z.pow_le_mono_r; [lia |]; rewrite firstn_length; lia).
  change (2 ^ 5) with 32 in P. lia.
Qed.
Lemma u_value_ok : forall d l n p, Z.shiftr d 5 = p -> 1 <= p <= 5 -> (n <= 5)%nat -> u_value d (number l) (Z.of_nat n) = p + number (firstn n l) /\ 1 <= p + number (firstn n l) <= 37.
Proof.
  intros d l n p E P N. unfold u_value. rewrite E, number_mask. pose proof (number_short n l N) as R. split; [apply u32_id; lia | lia].
Qed.

Lemma one_ok : forall l mode, (8 <= length l)%nat -> mode = 1 \/ mode = 2 -> exists u rest, u_one l = Some (u, rest) /\ 1 <= u <= 37 /\
  one_uvlc (number l) mode = (Z.of_nat (length l) - Z.of_nat (length rest), if mode =? 1 then (u + 1, 1) else (1, u + 1)).
Proof.
  intros l mode L M. destruct (look_ok l ltac:(lia)) as (p & n & k & E & K1 & K2 & Ep & Es & Ev & P & N & _). unfold u_one, one_uvlc. rewrite E, Ep, Es.
  destruct (Z.eqb_spec mode 0); [lia |]. cbn zeta. rewrite number_shift. destruct (u_value_ok _ (skipn k l) n p Ev P N) as (Eu & R). rewrite Eu.
  eexists. eexists. split; [reflexivity |]. split; [exact R |]. f_equal; [rewrite !skipn_length; lia |]. rewrite u32_id by lia. reflexivity.
Qed.
Lemma both_ok : forall l k, (16 <= length l)%nat -> 0 <= k <= 3 -> exists u1 u2 rest, u_pair l = Some (u1, u2, rest) /\ 1 <= u1 <= 37 /\ 1 <= u2 <= 37 /\
  both_uvlc (number l) k = (Z.of_nat (length l) - Z.of_nat (length rest), (u1 + k, u2 + k)).
Proof.
  intros l k L K. destruct (look_ok l ltac:(lia)) as (p & n & i & E & K1 & K2 & Ep & Es & Ev & P & N & _).
  assert (L' : (3 <= length (skipn i l))%nat) by (rewrite skipn_length; lia).
  destruct (look_ok (skipn i l) L') as (p' & n' & i' & E' & K1' & K2' & Ep' & Es' & Ev' & P' & N' & _). unfold u_pair, both_uvlc. rewrite E, E', Ep, Es. cbn zeta. rewrite number_shift, Ep', Es', number_shift.
  destruct (u_value_ok _ (skipn i' (skipn i l)) n p Ev P N) as (Eu & R). rewrite Eu. rewrite number_shift.
  destruct (u_value_ok _ (skipn n (skipn i' (skipn i l))) n' p' Ev' P' N') as (Eu' & R'). rewrite Eu'.
  do 3 eexists. split; [reflexivity |]. split; [exact R |]. split; [exact R' |]. rewrite !u32_id by lia. f_equal. rewrite !skipn_length. lia.
Qed.

(** C71, lines after the first: mode 1 codes the first value only, mode 2 the
    second, mode 3 both. *)
Theorem c71_noninit : forall l, length l = 32%nat ->
  decode_noninit_uvlc (number l) 0 = (0, (1, 1)) /\
  (exists u rest, u_one l = Some (u, rest) /\ decode_noninit_uvlc (number l) 1 = (32 - Z.of_nat (length rest), (u + 1, 1)) /\
     decode_noninit_uvlc (number l) 2 = (32 - Z.of_nat (length rest), (1, u + 1))) /\
  (exists u1 u2 rest, u_pair l = Some (u1, u2, rest) /\ decode_noninit_uvlc (number l) 3 = (32 - Z.of_nat (length rest), (u1 + 1, u2 + 1))).
Proof.
  intros l L. split; [reflexivity |]. split.
  - destruct (one_ok l 1 ltac:(lia) (or_introl eq_refl)) as (u & rest & E & _ & E1). destruct (one_ok l 2 ltac:(lia) (or_intror eq_refl)) as (u' & rest' & E' & _ & E2).
    rewrite E in E'. injection E' as <- <-. rewrite L in E1, E2. exists u, rest. split; [exact E |]. split; [exact E1 | exact E2].
  - destruct (both_ok l 1 ltac:(lia) ltac:(lia)) as (u1 & u2 & rest & E & _ & _ & E1). rewrite L in E1. exists u1, u2, rest. split; [exact E | exact E1].
Qed.
(** First line: mode 4 codes both, each two more; in mode 3, when the first
    value is three or more, one bit gives the second. *)
Theorem c71_init : forall l, length l = 32%nat ->
  decode_init_uvlc (number l) 0 = (0, (1, 1)) /\
  (exists u rest, u_one l = Some (u, rest) /\ decode_init_uvlc (number l) 1 = (32 - Z.of_nat (length rest), (u + 1, 1)) /\
     decode_init_uvlc (number l) 2 = (32 - Z.of_nat (length rest), (1, u + 1))) /\
  (exists p n l', u_prefix l = Some (p, n, l') /\
     (p <= 2 -> exists u1 u2 rest, u_pair l = Some (u1, u2, rest) /\ decode_init_uvlc (number l) 3 = (32 - Z.of_nat (length rest), (u1 + 1, u2 + 1))) /\
     (2 < p -> exists b l'', l' = b :: l'' /\
        decode_init_uvlc (number l) 3 = (32 - Z.of_nat (length (skipn n l'')), (p + number (firstn n l'') + 1, (if b : bool then 2 else 1) + 1)))) /\
  (exists u1 u2 rest, u_pair l = Some (u1, u2, rest) /\ decode_init_uvlc (number l) 4 = (32 - Z.of_nat (length rest), (u1 + 2 + 1, u2 + 2 + 1))).
Proof.
  intros l L. split; [reflexivity |]. split; [| split].
  - destruct (one_ok l 1 ltac:(lia) (or_introl eq_refl)) as (u & rest & E & _ & E1). destruct (one_ok l 2 ltac:(lia) (or_intror eq_refl)) as (u' & rest' & E' & _ & E2).
    rewrite E in E'. injection E' as <- <-. rewrite L in E1, E2. exists u, rest. split; [exact E |]. split; [exact E1 | exact E2].
  - destruct (look_ok l ltac:(lia)) as (p & n & k & E & K1 & K2 & Ep & Es & Ev & P & N & KP). exists p, n, (skipn k l). split; [exact E |].
    unfold decode_init_uvlc. change (3 <=? 2) with false. change (3 =? 3) with true. cbv iota zeta. rewrite Ep, Es. split; intros HP.
    + destruct (Z.ltb_spec 2 (Z.of_nat k)); [assert (k = 3%nat) by lia; apply KP in H0; lia |].
      destruct (both_ok l 1 ltac:(lia) ltac:(lia)) as (u1 & u2 & rest & E1 & _ & _ & E2). rewrite L in E2. exists u1, u2, rest. split; [exact E1 | exact E2].
    + apply KP in HP. subst k. change (2 <? Z.of_nat 3) with true. cbv iota. destruct (skipn 3 l) as [| b l''] eqn:ES.
      { assert (Q : length (skipn 3 l) = 0%nat) by (rewrite ES; reflexivity). rewrite skipn_length in Q. lia. }
      exists b, l''. split; [reflexivity |]. rewrite number_shift, ES. rewrite (number_shift 1 (b :: l'') : Z.shiftr (number (b :: l'')) 1 = number l'').
      destruct (u_value_ok _ l'' n p Ev P N) as (Eu & R). rewrite Eu. rewrite (u32_id (p + _ + 1)) by lia.
      assert (Eb : Z.land (number (b :: l'')) 1 = if b then 1 else 0). { change 1 with (Z.ones 1) at 1. rewrite Z.land_ones by lia. rewrite number_cons. change (2 ^ 1) with 2. rewrite (Z.mul_comm 2), Z.mod_add by lia. destruct b; reflexivity. }
      rewrite Eb. assert (Ln : length l'' = 28%nat). { assert (Q : length (skipn 3 l) = S (length l'')) by (rewrite ES; reflexivity). rewrite skipn_length in Q. lia. }
      f_equal; [rewrite skipn_length, Ln; lia | destruct b; reflexivity].
  - destruct (both_ok l 3 ltac:(lia) ltac:(lia)) as (u1 & u2 & rest & E & _ & _ & E1). rewrite L in E1. exists u1, u2, rest. split; [exact E |].
    replace (u1 + 2 + 1) with (u1 + 3) by lia. replace (u2 + 2 + 1) with (u2 + 3) by lia. exact E1.
Qed.

(** 01, 1: values 2 and 1 and three bits used; 000, 1, then suffix 3. *)
Example c71_short : decode_noninit_uvlc 6 3 = (3, (3, 2)).
Proof. reflexivity. Qed.
Example c71_long : decode_init_uvlc (8 + 16 * 3) 3 = (9, (9, 3)).
Proof. reflexivity. Qed.
Example c71_more : decode_init_uvlc 3 4 = (2, (4, 4)).
Proof. reflexivity. Qed.

Print Assumptions c71_noninit.
Print Assumptions c71_init.
