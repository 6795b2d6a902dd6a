(** Specification of packet-header bit packing (ISO/IEC 15444-1 B.10.1),
    independent of the reader and writer models. *)

From Coq Require Import ZArith List Bool.
Import ListNotations.
Local Open Scope Z_scope.

(** The [n] low bits of [v], most significant first. *)
Fixpoint bits_of (n : nat) (v : Z) : list bool :=
  match n with
  | O => []
  | S n => Z.testbit v (Z.of_nat n) :: bits_of n v
  end.

(** The number written by a list of bits, most significant first. *)
Fixpoint number (l : list bool) : Z :=
  match l with
  | [] => 0
  | b :: r => (if b then 1 else 0) * 2 ^ Z.of_nat (List.length r) + number r
  end.

(** The bits carried by a byte sequence: eight per byte, but only the low
    seven of a byte that follows 0xFF; [prev] is the byte before. *)
Fixpoint unstuff (prev : Z) (bytes : list Z) : list bool :=
  match bytes with
  | [] => []
  | x :: r => bits_of (if prev =? 255 then 7 else 8) x ++ unstuff x r
  end.

(** Marker-free: a byte 0xFF is always followed by a byte below 0x80, and is
    never last. *)
Fixpoint marker_free (bytes : list Z) : Prop :=
  match bytes with
  | [] => True
  | x :: r => (x = 255 -> match r with [] => False | y :: _ => y < 128 end) /\ marker_free r
  end.

Definition byte_range (x : Z) : Prop := 0 <= x < 256.

(** The bits of a list of fields (value, width). *)
Definition field_bits (l : list (Z * Z)) : list bool :=
  flat_map (fun f => bits_of (Z.to_nat (snd f)) (fst f)) l.

Definition zeros (k : nat) : list bool := repeat false k.
