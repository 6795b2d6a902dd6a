(** Model of the storage of tag trees (tgt.rs [opj_tgt_create], [opj_tgt_init],
    [opj_tgt_reset]) with the addresses of nodes, and of their reuse from tile to
    tile (tcd.rs:1279-1306). [TgtModel] has the shape and the operations of a tree;
    here parents are pointers into an array that may move when it grows, and
    every write of a node is checked against the size of that array. *)

From Coq Require Import ZArith List Bool Arith.
From Verif Require Import Ints TgtModel.
Import ListNotations.
Local Open Scope Z_scope.

(** types.rs:637-642: a pointer, two i32 and a u32, rounded up to the alignment. *)
Definition node_size : Z := 24.

(** types.rs:626-633 [opj_tgt_tree]: leaves, number of nodes, address and size in
    bytes of the nodes, and per node the parent ([None] is null) and the rest. *)
Record rtree := mkR { r_w : nat; r_h : nat; r_num : nat; r_base : Z; r_size : Z; r_parent : nat -> option Z; r_store : store }.

(** [Fault] is a panic or a write outside the nodes. *)
Inductive result := Tree (t : rtree) | Null | Fault.

Definition room (size : Z) (i : nat) : bool := node_size * (Z.of_nat i + 1) <=? size.

(** tgt.rs:107-138, 219-253: the parents of all nodes in order (as indices, from
    [TgtModel.wire_levels]) are written as addresses, and null after them. *)
Fixpoint wire (size base : Z) (i : nat) (ps : list nat) (m : nat -> option Z) : option (nat -> option Z) :=
  if room size i then
    match ps with
    | [] => Some (fun j => if (j =? i)%nat then None else m j)
    | p :: ps => wire size base (S i) ps (fun j => if (j =? i)%nat then Some (base + node_size * Z.of_nat p) else m j)
    end
  else None.

(** tgt.rs:272-287 *)
Definition reset (t : rtree) : result :=
  if node_size * Z.of_nat (r_num t) <=? r_size t
  then Tree (mkR (r_w t) (r_h t) (r_num t) (r_base t) (r_size t) (r_parent t) (fun i => if (i <? r_num t)%nat then mkT 999 0 false else r_store t i))
  else Fault.

(** tgt.rs:73-82, 173-189: number of nodes and parents; [None] is a panic. *)
Definition shape (w h : nat) : option (nat * list nat) :=
  match levels 31 w h with
  | None => None
  | Some ls => Some (list_sum (map (fun d => fst d * snd d) ls)%nat, wire_levels ls (w * h) (w * h))
  end.

(** tgt.rs:50-141. [opj_calloc] takes the size as a size_t, and either has no
    memory or gives zeroed memory at [alloc]; [wire] is checked against what was
    allocated, [nodes_size] is kept in 32 bits. *)
Definition create (alloc : option Z) (w h : nat) : result :=
  match shape w h with
  | None => Fault
  | Some (n, ps) =>
      if (n =? 0)%nat then Null
      else match alloc with
      | None => Null
      | Some b =>
          match wire (node_size * Z.of_nat n) b 0 ps (fun _ => None) with
          | None => Fault
          | Some m => Tree (mkR w h n b (u32 (node_size * Z.of_nat n)) m (fun _ => mkT 999 0 false))
          end
      end
  end.

(** tgt.rs:199-218: [opj_realloc] keeps the bytes; the new ones are zeroed. *)
Definition grow (alloc : option Z) (t : rtree) (need : Z) : option rtree :=
  if r_size t <? need then
    match alloc with
    | None => None
    | Some b =>
        Some (mkR (r_w t) (r_h t) (r_num t) b need
          (fun i => if room (r_size t) i then r_parent t i else None)
          (fun i => if room (r_size t) i then r_store t i else mkT 0 0 false))
    end
  else Some t.

(** tgt.rs:150-259. A tree without nodes, or one that cannot grow, is freed. *)
Definition init (alloc : option Z) (t : rtree) (w h : nat) : result :=
  if ((r_w t =? w) && (r_h t =? h))%nat then reset t
  else match shape w h with
  | None => Fault
  | Some (n, ps) =>
      if (n =? 0)%nat then Null
      else match grow alloc t (u32 (node_size * Z.of_nat n)) with
      | None => Null
      | Some t =>
          match wire (r_size t) (r_base t) 0 ps (r_parent t) with
          | None => Fault
          | Some m => reset (mkR w h n (r_base t) (r_size t) m (r_store t))
          end
      end
  end.

(** tcd.rs:1279-1306: the tree of a precinct for the next tile. *)
Definition next (alloc : option Z) (o : option rtree) (w h : nat) : result :=
  match o with None => create alloc w h | Some t => init alloc t w h end.
