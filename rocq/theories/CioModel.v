(** Model of cio.rs: integers and floats in big-endian byte order. A buffer is a
    list of bytes, a pointer into it an index. [None] is a panic (bad byte
    count) or an access outside the buffer. Floats are their bit patterns. *)

From Coq Require Import ZArith List Bool.
Import ListNotations.
Local Open Scope Z_scope.

Definition byte (v : Z) (i : Z) : Z := Z.land (Z.shiftr v (8 * i)) 255.

(** [to_be_bytes] and [from_be_bytes] of the standard library. *)
Definition to_be4 (v : Z) : list Z := [byte v 3; byte v 2; byte v 1; byte v 0].
Definition to_be8 (v : Z) : list Z := [byte v 7; byte v 6; byte v 5; byte v 4; byte v 3; byte v 2; byte v 1; byte v 0].
Definition from_be (l : list Z) : Z := fold_left (fun a b => Z.lor (Z.shiftl a 8) b) l 0.

(** A slice of [n] bytes at [p], and overwriting it. *)
Definition slice (buf : list Z) (p n : nat) : option (list Z) :=
  if (p + n <=? length buf)%nat then Some (firstn n (skipn p buf)) else None.
Definition overwrite (buf : list Z) (p : nat) (bs : list Z) : option (list Z) :=
  if (p + length bs <=? length buf)%nat
  then Some (firstn p buf ++ bs ++ skipn (p + length bs) buf) else None.

Definition count_ok (nb : nat) : bool := (1 <=? nb)%nat && (nb <=? 4)%nat.

(** cio.rs:40-53 *)
Definition write_bytes (buf : list Z) (p : nat) (v : Z) (nb : nat) : option (list Z) :=
  if count_ok nb then overwrite buf p (skipn (4 - nb) (to_be4 v)) else None.
(** cio.rs:55-68 *)
Definition read_bytes (buf : list Z) (p nb : nat) : option Z :=
  if count_ok nb then
    match slice buf p nb with Some l => Some (from_be (repeat 0 (4 - nb) ++ l)) | None => None end
  else None.
(** cio.rs:70-75, 77-87 *)
Definition write_double (buf : list Z) (p : nat) (v : Z) : option (list Z) := overwrite buf p (to_be8 v).
Definition read_double (buf : list Z) (p : nat) : option Z :=
  match slice buf p 8 with Some l => Some (from_be l) | None => None end.
(** cio.rs:89-94, 96-104 *)
Definition write_float (buf : list Z) (p : nat) (v : Z) : option (list Z) := overwrite buf p (to_be4 v).
Definition read_float (buf : list Z) (p : nat) : option Z :=
  match slice buf p 4 with Some l => Some (from_be l) | None => None end.
