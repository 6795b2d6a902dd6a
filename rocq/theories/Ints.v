(** Unsigned machine words. *)

From Coq Require Import ZArith Lia.
Local Open Scope Z_scope.

Definition u32 (x : Z) : Z := x mod 2 ^ 32.
Definition u64 (x : Z) : Z := x mod 2 ^ 64.
Definition is_u32 (x : Z) : Prop := 0 <= x < 2 ^ 32.

Lemma u32_id : forall x, 0 <= x < 2 ^ 32 -> u32 x = x.
Proof. intros. apply Z.mod_small. assumption. Qed.

Lemma u64_id : forall x, 0 <= x < 2 ^ 64 -> u64 x = x.
Proof. intros. apply Z.mod_small. assumption. Qed.

Lemma u32_range : forall x, is_u32 (u32 x).
Proof. intros. apply Z.mod_pos_bound. reflexivity. Qed.
