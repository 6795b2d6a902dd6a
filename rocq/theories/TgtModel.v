(** Model of openjp2-rs/src/tgt.rs: tag trees. *)

From Coq Require Import ZArith List Bool Arith.
From Verif Require Import BioModel.
Import ListNotations.
Local Open Scope nat_scope.

(** ** Shape of the tree *)

(** tgt.rs:73-82 the loop filling [nplh]/[nplv].  [fuel] is the number of rounds
    for which the write to index [numlvls + 1] stays inside the 32-entry arrays;
    [None] is the out-of-range panic or the i32 overflow of the product. *)
Fixpoint levels (fuel w h : nat) : option (list (nat * nat)) :=
  match fuel with
  | O => None
  | S fuel =>
      if (2147483647 <? Z.of_nat w * Z.of_nat h)%Z then None
      else if w * h <=? 1 then Some [(w, h)]
      else option_map (cons (w, h)) (levels fuel ((w + 1) / 2) ((h + 1) / 2))
  end.

(** tgt.rs:111-126 the inner loop over one row of [k] nodes: two neighbours share
    the parent [p].  Result: parents of the row, next parent. *)
Fixpoint wire_row (k p : nat) : list nat * nat :=
  match k with
  | O => ([], p)
  | S O => ([p], S p)
  | S (S k) => let '(l, p') := wire_row k (S p) in (p :: p :: l, p')
  end.

(** tgt.rs:109-134 the loop over the rows [j] of one level with [w] x [h] nodes;
    [p], [p0] are [l_parent_node], [l_parent_node0] as indices. *)
Fixpoint wire_rows (rem j w h p p0 : nat) : list nat * (nat * nat) :=
  match rem with
  | O => ([], (p, p0))
  | S rem =>
      let '(l, p') := wire_row w p in
      let '(p, p0) := if Nat.odd j || (j =? h - 1) then (p', p') else (p0, p0 + w) in
      let '(l', r) := wire_rows rem (S j) w h p p0 in
      (l ++ l', r)
  end.

(** tgt.rs:107-137 the loop over all levels but the last. *)
Fixpoint wire_levels (ls : list (nat * nat)) (p p0 : nat) : list nat :=
  match ls with
  | (w, h) :: ((_ :: _) as rest) =>
      let '(l, (p, p0)) := wire_rows h 0 w h p p0 in l ++ wire_levels rest p p0
  | _ => []
  end.

(** types.rs:637-642 [opj_tgt_node]; the node array is a total map from indices. *)
Record tnode : Type := mkT { n_value : Z; n_low : Z; n_known : bool }.
Definition store := nat -> tnode.

(** [t_parents] lists the parents of all nodes but the root, in node order. *)
Record tree : Type := mkTree { t_parents : list nat; t_nodes : nat; t_store : store }.

Definition parent (t : tree) (i : nat) : option nat := nth_error (t_parents t) i.

Definition upd (s : store) (i : nat) (x : tnode) : store := fun j => if j =? i then x else s j.

(** tgt.rs:272-287 [opj_tgt_reset]. *)
Definition blank : store := fun _ => mkT 999 0 false.
Definition tgt_reset (t : tree) : tree := mkTree (t_parents t) (t_nodes t) blank.

(** tgt.rs:50-141 [opj_tgt_create], and [opj_tgt_init] (150-259), which repeats
    the same computation on recycled storage; [None] is a null result or a
    panic.  Allocation failure is not modelled. *)
Definition tgt_create (w h : nat) : option tree :=
  match levels 31 w h with
  | None => None
  | Some ls =>
      let n := list_sum (map (fun d => fst d * snd d) ls) in
      if n =? 0 then None else Some (mkTree (wire_levels ls (w * h) (w * h)) n blank)
  end.

(** ** Operations *)

(** tgt.rs:289-300 [opj_tgt_setvalue]; the fuel is the number of nodes. *)
Fixpoint setvalue_loop (fuel : nat) (par : nat -> option nat) (s : store) (i : nat) (v : Z) : store :=
  match fuel with
  | O => s
  | S fuel =>
      if (v <? n_value (s i))%Z then
        let s := upd s i (mkT v (n_low (s i)) (n_known (s i))) in
        match par i with Some p => setvalue_loop fuel par s p v | None => s end
      else s
  end.

Definition tgt_setvalue (t : tree) (leaf : nat) (v : Z) : tree :=
  mkTree (t_parents t) (t_nodes t) (setvalue_loop (t_nodes t) (parent t) (t_store t) leaf v).

(** tgt.rs:312-319, 358-365 the walk from a leaf to the root, leaf first. *)
Fixpoint ancestors (fuel : nat) (par : nat -> option nat) (i : nat) : list nat :=
  match fuel with
  | O => []
  | S fuel => i :: match par i with Some p => ancestors fuel par p | None => [] end
  end.

Definition tgt_path (t : tree) (leaf : nat) : list nat := rev (ancestors (t_nodes t) (parent t) leaf).

(** tgt.rs:327-338 the loop at one node while encoding; the fuel is
    [threshold - low].  Result: bits put, final [low], final [known]. *)
Fixpoint enc_loop (k : nat) (value low : Z) (known : bool) : list bool * Z * bool :=
  match k with
  | O => ([], low, known)
  | S k =>
      if (value <=? low)%Z then ((if known then [] else [true]), low, true)
      else let '(bs, low', known') := enc_loop k value (low + 1) known in (false :: bs, low', known')
  end.

(** tgt.rs:320-345 the loop over the path, root first. *)
Fixpoint enc_path (s : store) (low t : Z) (p : list nat) : list bool * store :=
  match p with
  | [] => ([], s)
  | i :: r =>
      let nd := s i in
      let low := Z.max low (n_low nd) in
      let '(bs, low, known) := enc_loop (Z.to_nat (t - low)) (n_value nd) low (n_known nd) in
      let '(bs', s) := enc_path (upd s i (mkT (n_value nd) low known)) low t r in
      (bs ++ bs', s)
  end.

(** tgt.rs:302-346 [opj_tgt_encode]: the bits handed to [opj_bio_putbit], in order. *)
Definition tgt_encode (t : tree) (leaf : nat) (threshold : Z) : list bool * tree :=
  let '(bs, s) := enc_path (t_store t) 0 threshold (tgt_path t leaf) in
  (bs, mkTree (t_parents t) (t_nodes t) s).

(** [opj_bio_read(bio, 1) != 0]. *)
Definition read1 (r : bio_r) : bool * bio_r :=
  let '(v, r) := read_loop 1 r 0 in (negb (v =? 0)%Z, r).

(** tgt.rs:374-380 the loop at one node while decoding; the fuel is
    [threshold - low].  Result: final [value], [low], reader. *)
Fixpoint dec_loop (k : nat) (value low : Z) (r : bio_r) : Z * Z * bio_r :=
  match k with
  | O => (value, low, r)
  | S k =>
      if (low <? value)%Z then
        let '(b, r) := read1 r in
        if b then (low, low, r) else dec_loop k value (low + 1) r
      else (value, low, r)
  end.

(** tgt.rs:366-387 the loop over the path. *)
Fixpoint dec_path (s : store) (low t : Z) (p : list nat) (r : bio_r) : store * bio_r :=
  match p with
  | [] => (s, r)
  | i :: q =>
      let nd := s i in
      let low := Z.max low (n_low nd) in
      let '(value, low, r) := dec_loop (Z.to_nat (t - low)) (n_value nd) low r in
      dec_path (upd s i (mkT value low (n_known nd))) low t q r
  end.

(** tgt.rs:348-392 [opj_tgt_decode]. *)
Definition tgt_decode (t : tree) (leaf : nat) (threshold : Z) (r : bio_r) : bool * tree * bio_r :=
  let '(s, r) := dec_path (t_store t) 0 threshold (tgt_path t leaf) r in
  ((n_value (s leaf) <? threshold)%Z, mkTree (t_parents t) (t_nodes t) s, r).

(** ** Client histories *)

Inductive tgt_op : Type :=
| TSet (leaf : nat) (v : Z)
| TQuery (leaf : nat) (threshold : Z).

(** Bits put by the encoder for a history of operations. *)
Fixpoint enc_run (t : tree) (l : list tgt_op) : list bool * tree :=
  match l with
  | [] => ([], t)
  | TSet leaf v :: l => enc_run (tgt_setvalue t leaf v) l
  | TQuery leaf th :: l =>
      let '(bs, t) := tgt_encode t leaf th in
      let '(bs', t) := enc_run t l in (bs ++ bs', t)
  end.

(** Answers of the decoder for the queries of the history. *)
Fixpoint dec_run (t : tree) (r : bio_r) (l : list tgt_op) : list bool * tree * bio_r :=
  match l with
  | [] => ([], t, r)
  | TSet _ _ :: l => dec_run t r l
  | TQuery leaf th :: l =>
      let '(b, t, r) := tgt_decode t leaf th r in
      let '(bs, t, r) := dec_run t r l in (b :: bs, t, r)
  end.
