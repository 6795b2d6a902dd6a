(** What packed packet headers are: packs of bytes, each after its length in four
    bytes, cut into marker segments anywhere but inside a length. *)

From Coq Require Import ZArith List.
Import ListNotations.
Local Open Scope Z_scope.

Definition num_bytes (n : Z) : list Z := [n / 2 ^ 24 mod 256; n / 2 ^ 16 mod 256; n / 2 ^ 8 mod 256; n mod 256].
(** The parts of a pack that are not cut: its length, and its bytes. *)
Definition tokens (p : list Z) : list (list Z) := num_bytes (Z.of_nat (length p)) :: map (fun b => [b]) p.
(** [segs] are the packs, cut. *)
Definition cut (packs segs : list (list Z)) : Prop :=
  exists groups, concat groups = flat_map tokens packs /\ segs = map (@concat Z) groups.
(** The data there are, by rising index. *)
Definition present (l : list (option (list Z))) : list (list Z) := flat_map (fun o => match o with Some d => [d] | None => [] end) l.
(** The data with index [z] among segments of index and data. *)
Definition with_index (segs : list (list Z)) (z : Z) : list (list Z) :=
  flat_map (fun s => match s with i :: d => if i =? z then [d] else [] | [] => [] end) segs.
Definition by_index (segs : list (list Z)) : list (list Z) := flat_map (fun z => with_index segs (Z.of_nat z)) (seq 0 256).
