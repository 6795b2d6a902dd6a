(** Specification of tag trees (ISO/IEC 15444-1 B.10.2). *)

From Coq Require Import ZArith List Bool Arith.
From Verif Require Import TgtModel.
Import ListNotations.

(** The grid of level [i] over a [w] x [h] grid of leaves: every dimension is
    halved, rounding up. *)
Definition halve (n : nat) : nat := (n + 1) / 2.
Fixpoint grid (i : nat) (w h : nat) : nat * nat :=
  match i with O => (w, h) | S i => grid i (halve w) (halve h) end.
(** Number of nodes below level [i]. *)
Fixpoint base (i : nat) (w h : nat) : nat :=
  match i with O => 0 | S i => w * h + base i (halve w) (halve h) end.
(** The node of level [i] in column [x] and row [y]. *)
Definition node_at (i w h x y : nat) : nat := base i w h + y * fst (grid i w h) + x.

(** The value of a leaf after a history: the least value given to it. *)
Fixpoint leaf_value (leaf : nat) (l : list tgt_op) (v : Z) : Z :=
  match l with
  | [] => v
  | TSet i x :: l => leaf_value leaf l (if i =? leaf then Z.min v x else v)
  | TQuery _ _ :: l => leaf_value leaf l v
  end.

(** The right answers to the queries of [l] after the history [before]. *)
Fixpoint answers (before l : list tgt_op) : list bool :=
  match l with
  | [] => []
  | TQuery i t :: l => (leaf_value i before 999 <? t)%Z :: answers (before ++ [TQuery i t]) l
  | o :: l => answers (before ++ [o]) l
  end.

(** Histories an encoder may produce: leaves exist, thresholds are at most 999,
    and a value is only set above all thresholds queried before ([m]). *)
Fixpoint fair (leaves : nat) (m : Z) (l : list tgt_op) : Prop :=
  match l with
  | [] => True
  | TSet i v :: l => i < leaves /\ (0 <= v)%Z /\ (m <= v)%Z /\ fair leaves m l
  | TQuery i t :: l => i < leaves /\ (t <= 999)%Z /\ fair leaves (Z.max m t) l
  end.
