(** Signed 32-bit arithmetic of a release build: results wrap. *)

From Coq Require Import ZArith Lia.
Local Open Scope Z_scope.

Definition i32 (x : Z) : Z := (x + 2 ^ 31) mod 2 ^ 32 - 2 ^ 31.
Definition in_i32 (x : Z) : Prop := - 2 ^ 31 <= x < 2 ^ 31.

Lemma i32_id : forall x, in_i32 x -> i32 x = x.
Proof. unfold i32, in_i32. intros x H. rewrite Z.mod_small; lia. Qed.

Lemma i32_range : forall x, in_i32 (i32 x).
Proof.
  unfold i32, in_i32. intros x. pose proof (Z.mod_pos_bound (x + 2 ^ 31) (2 ^ 32) ltac:(lia)). lia.
Qed.

Lemma i32_eq : forall x y k, x = y + k * 2 ^ 32 -> i32 x = i32 y.
Proof.
  intros x y k ->. unfold i32. replace (y + k * 2 ^ 32 + 2 ^ 31) with (y + 2 ^ 31 + k * 2 ^ 32) by lia.
  rewrite Z.mod_add by lia. reflexivity.
Qed.

Lemma i32_witness : forall x, exists k, i32 x = x + k * 2 ^ 32.
Proof.
  intros x. exists (- ((x + 2 ^ 31) / 2 ^ 32)). unfold i32.
  pose proof (Z.div_mod (x + 2 ^ 31) (2 ^ 32) ltac:(lia)). lia.
Qed.

Lemma i32_i32 : forall x, i32 (i32 x) = i32 x.
Proof. intros x. apply i32_id, i32_range. Qed.

Lemma i32_sub_l : forall x y, i32 (i32 x - y) = i32 (x - y).
Proof. intros x y. destruct (i32_witness x) as [k ->]. apply (i32_eq _ _ k). lia. Qed.

Lemma i32_add_l : forall x y, i32 (i32 x + y) = i32 (x + y).
Proof. intros x y. destruct (i32_witness x) as [k ->]. apply (i32_eq _ _ k). lia. Qed.

Lemma i32_add_sub : forall x u, in_i32 x -> i32 (i32 (x + u) - u) = x.
Proof. intros x u H. rewrite i32_sub_l. replace (x + u - u) with x by lia. apply i32_id, H. Qed.

Lemma i32_sub_add : forall x u, in_i32 x -> i32 (i32 (x - u) + u) = x.
Proof. intros x u H. rewrite i32_add_l. replace (x - u + u) with x by lia. apply i32_id, H. Qed.
