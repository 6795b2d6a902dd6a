(** Arithmetic forms of shifts and masks. *)

From Coq Require Import ZArith Lia Bool.
Local Open Scope Z_scope.

Lemma pow2_gt0 : forall n, 0 <= n -> 0 < 2 ^ n.
Proof. intros. apply Z.pow_pos_nonneg; lia. Qed.

Lemma shl_mul : forall a n, 0 <= n -> Z.shiftl a n = a * 2 ^ n.
Proof. intros. apply Z.shiftl_mul_pow2; assumption. Qed.

Lemma shr_div : forall a n, 0 <= n -> Z.shiftr a n = a / 2 ^ n.
Proof. intros. apply Z.shiftr_div_pow2; assumption. Qed.

Lemma land_ones_mod : forall a n, 0 <= n -> Z.land a (2 ^ n - 1) = a mod 2 ^ n.
Proof.
  intros. rewrite <- Z.land_ones by assumption. f_equal. rewrite Z.ones_equiv. lia.
Qed.

Lemma land_mul_small : forall a b n, 0 <= n -> 0 <= b < 2 ^ n -> Z.land (a * 2 ^ n) b = 0.
Proof.
  intros a b n Hn Hb. apply Z.bits_inj'. intros k Hk. rewrite Z.land_spec, Z.bits_0.
  destruct (Z.ltb_spec k n).
  - rewrite Z.mul_pow2_bits_low by lia. reflexivity.
  - destruct (Z.eq_dec b 0) as [-> | Hnz]; [rewrite Z.bits_0; apply andb_false_r |].
    rewrite (Z.bits_above_log2 b k); [apply andb_false_r | lia |].
    apply Z.log2_lt_pow2; [lia |]. eapply Z.lt_le_trans; [apply Hb |]. apply Z.pow_le_mono_r; lia.
Qed.

Lemma lor_add : forall a b n, 0 <= n -> 0 <= b < 2 ^ n -> Z.lor (a * 2 ^ n) b = a * 2 ^ n + b.
Proof.
  intros a b n Hn Hb. pose proof (land_mul_small a b n Hn Hb) as H.
  rewrite Z.add_nocarry_lxor by assumption. symmetry. apply Z.lxor_lor. assumption.
Qed.

(** The same for a value known to be a multiple of [2^n]. *)
Lemma lor_add_mod : forall a b n, 0 <= n -> 0 <= b < 2 ^ n -> a mod 2 ^ n = 0 -> Z.lor a b = a + b.
Proof.
  intros a b n Hn Hb Ha. pose proof (pow2_gt0 n Hn).
  rewrite (Z.div_mod a (2 ^ n)) by lia. rewrite Ha, Z.add_0_r, Z.mul_comm. apply lor_add; assumption.
Qed.

Lemma land_1 : forall a, Z.land a 1 = a mod 2.
Proof. intros. change 1 with (2 ^ 1 - 1) at 1. rewrite land_ones_mod by lia. reflexivity. Qed.

Lemma mod_small_mul : forall a b c, 0 < c -> (a * c + b) mod c = b mod c.
Proof. intros. rewrite Z.add_comm, Z.mod_add by lia. reflexivity. Qed.

Lemma div_small_mul : forall a b c, 0 < c -> 0 <= b < c -> (a * c + b) / c = a.
Proof. intros. rewrite Z.add_comm, Z.div_add by lia. rewrite Z.div_small by lia. lia. Qed.

(** Value of bit [k] of [v]. *)
Lemma bit_value : forall v k, 0 <= k -> Z.land (Z.shiftr v k) 1 = Z.b2z (Z.testbit v k).
Proof.
  intros v k Hk. rewrite land_1. rewrite <- Z.bit0_mod. rewrite Z.shiftr_spec by lia.
  f_equal.
Qed.

Lemma pow2_S : forall n, 0 <= n -> 2 ^ (n + 1) = 2 * 2 ^ n.
Proof. intros. rewrite Z.pow_add_r by lia. change (2 ^ 1) with 2. lia. Qed.

(** Splitting off the top bit of an [n+1]-bit residue. *)
Lemma mod_top_bit : forall v n, 0 <= n -> v mod 2 ^ (n + 1) = Z.b2z (Z.testbit v n) * 2 ^ n + v mod 2 ^ n.
Proof.
  intros v n Hn. rewrite Z.testbit_spec' by lia. pose proof (pow2_gt0 n Hn).
  rewrite pow2_S by assumption. rewrite Z.mul_comm. rewrite Z.rem_mul_r by lia. lia.
Qed.
