(** Model of math.rs: integer helpers of the codec, compiled without overflow
    checks. [None] is a panic. Shift amounts are masked as on the machine. *)

From Coq Require Import ZArith.
From Verif Require Import Ints I32.
Local Open Scope Z_scope.

(** Two's-complement wrap to i64. *)
Definition i64 (x : Z) : Z := (x + 2 ^ 63) mod 2 ^ 64 - 2 ^ 63.

(** math.rs:21-24 *)
Definition int_floordivpow2 (a b : Z) : Z := Z.shiftr a (b mod 32).
(** math.rs:37-40 *)
Definition uint_floordivpow2 (a b : Z) : Z := Z.shiftr a (b mod 32).

(** math.rs:26-35 and 42-51; at most 31 iterations, [l] counts them. *)
Fixpoint floorlog2_loop (fuel : nat) (a l : Z) : Z :=
  match fuel with
  | O => l
  | S fuel => if 1 <? a then floorlog2_loop fuel (Z.shiftr a 1) (l + 1) else l
  end.
Definition floorlog2 (a : Z) : Z := floorlog2_loop 32 a 0.

(** math.rs:53-56 *)
Definition uint_ceildivpow2 (a b : Z) : Z :=
  u32 (Z.shiftr (u64 (u64 (a + u64 (Z.shiftl 1 (b mod 64))) - 1)) (b mod 64)).
(** math.rs:58-65 *)
Definition uint_ceildiv (a b : Z) : option Z :=
  if b =? 0 then None else Some (u32 (u64 (u64 (a + b) - 1) / b)).
(** math.rs:67-70 *)
Definition int64_ceildivpow2 (a b : Z) : Z :=
  i32 (Z.shiftr (i64 (i64 (a + i64 (Z.shiftl 1 (b mod 64))) - 1)) (b mod 64)).
(** math.rs:72-76; [/] truncates towards zero. *)
Definition int_ceildiv (a b : Z) : option Z :=
  if b =? 0 then None else Some (i32 (Z.quot (i64 (i64 (a + b) - 1)) b)).
(** math.rs:78-82 *)
Definition uint64_ceildiv_res_uint32 (a b : Z) : option Z :=
  if b =? 0 then None else Some (u32 (u64 (u64 (a + b) - 1) / b)).
(** math.rs:84-87 *)
Definition int_ceildivpow2 (a b : Z) : Z :=
  i32 (Z.shiftr (i64 (i64 (a + i64 (Z.shiftl 1 (b mod 64))) - 1)) (b mod 64)).

(** math.rs:89-92, 99-102 *)
Definition uint_adds (a b : Z) : Z := Z.min (2 ^ 32 - 1) (a + b).
Definition uint_subs (a b : Z) : Z := Z.max 0 (a - b).
(** math.rs:94-97 *)
Definition int_abs (a : Z) : Z := i32 (Z.abs a).
(** math.rs:109-117; [clamp] panics on an empty range. *)
Definition int_clamp (a lo hi : Z) : option Z := if lo <=? hi then Some (Z.max lo (Z.min hi a)) else None.
(** math.rs:119-127 *)
Definition int_sub_no_overflow (a b : Z) : Z := i32 (a - b).
Definition int_add_no_overflow (a b : Z) : Z := i32 (a + b).
