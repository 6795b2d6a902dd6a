(** Model of the variable-length codes of openjp2-rs/src/t2.rs:70-117.

    Writers are modelled by the list of (value, width) fields they hand to
    [opj_bio_write]; an [opj_bio_putbit] of [b] is the field [(b, 1)], which
    drives the writer through the same single [opj_bio_putbit]. *)

From Coq Require Import ZArith List Bool.
From Verif Require Import BioModel TgtModel.
Import ListNotations.
Local Open Scope Z_scope.

Definition u32 (x : Z) : Z := x mod 2 ^ 32.

(** t2.rs:70-75 [opj_t2_putcommacode]; a negative [n] runs no iteration. *)
Definition put_commacode (n : Z) : list (Z * Z) := repeat (1, 1) (Z.to_nat n) ++ [(0, 1)].

(** t2.rs:76-82 [opj_t2_getcommacode].  The loop ends at the first zero bit; past
    the end of the data the reader delivers zeros, so [fuel] larger than the
    number of bits left is never exhausted. *)
Fixpoint get_commacode (fuel : nat) (n : Z) (r : bio_r) : option (Z * bio_r) :=
  match fuel with
  | O => None
  | S fuel => let '(b, r) := read1 r in if b then get_commacode fuel (n + 1) r else Some (n, r)
  end.

(** t2.rs:87-99 [opj_t2_putnumpasses]; above 164 nothing is written. *)
Definition put_numpasses (n : Z) : list (Z * Z) :=
  if n =? 1 then [(0, 1)]
  else if n =? 2 then [(2, 2)]
  else if n <=? 5 then [(Z.lor 12 (u32 (n - 3)), 4)]
  else if n <=? 36 then [(Z.lor 480 (u32 (n - 6)), 9)]
  else if n <=? 164 then [(Z.lor 65408 (u32 (n - 37)), 16)]
  else [].

(** [opj_bio_read] with a width between 1 and 32. *)
Definition readn (n : nat) (r : bio_r) : Z * bio_r := read_loop n r 0.

(** t2.rs:100-117 [opj_t2_getnumpasses]. *)
Definition get_numpasses (r : bio_r) : Z * bio_r :=
  let '(b, r) := read1 r in
  if negb b then (1, r) else
  let '(b, r) := read1 r in
  if negb b then (2, r) else
  let '(n, r) := readn 2 r in
  if negb (n =? 3) then (3 + n, r) else
  let '(n, r) := readn 5 r in
  if negb (n =? 31) then (6 + n, r) else
  let '(n, r) := readn 7 r in
  (37 + n, r).
