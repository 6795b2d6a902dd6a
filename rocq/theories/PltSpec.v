(** What packet length segments say, for PltProps (C62). *)

From Coq Require Import ZArith List Bool.
From Verif Require Import PartSpec.
Import ListNotations.
Local Open Scope Z_scope.

(** ISO 15444-1 A.7.3: the lengths in a segment, seven bits in each byte, the
    highest first; the last byte of a length is below 128. *)
Fixpoint lengths (b : list Z) (acc : Z) (inside : bool) : option (list Z) :=
  match b with
  | [] => if inside then None else Some []
  | x :: b =>
      if x <? 128 then match lengths b 0 false with None => None | Some l => Some (128 * acc + x :: l) end
      else lengths b (128 * acc + (x - 128)) true
  end.

(** Segments numbered from 0, with the lengths of some packets each. *)
Fixpoint say (k : Z) (segs : list (list Z)) (sizes : list Z) : Prop :=
  match segs with
  | [] => sizes = []
  | b :: segs => exists c l more, b = k :: c /\ Forall (fun x => 0 <= x < 256) c /\ lengths c 0 false = Some l /\
      sizes = l ++ more /\ say (k + 1) segs more
  end.

Definition sum (l : list Z) : Z := fold_right Z.add 0 l.
(** Bytes that the length of a packet takes. *)
Definition bytes_of (n : Z) : Z := if n <? 2 ^ 7 then 1 else if n <? 2 ^ 14 then 2 else if n <? 2 ^ 21 then 3 else if n <? 2 ^ 28 then 4 else 5.
