(** Model of sparse_array.rs: a two-dimensional array of i32 kept as blocks that
    are allocated on the first write to them.

    Simplifications: a block is a total memory of which cells
    [0 .. block_width * block_height) are used; C pointers into a block or into
    the caller's buffer are indices; the allocation of block [i] succeeds iff
    [alloc i]. *)

From Coq Require Import ZArith List Bool.
From Verif Require Import Ints Mem.
Import ListNotations.
Local Open Scope Z_scope.

(** sparse_array.rs:44-52 *)
Record sparse := mkS {
  width : Z; height : Z; block_width : Z; block_height : Z;
  block_count_hor : Z; block_count_ver : Z; data_blocks : Z -> option mem }.

(** sparse_array.rs:55-61 *)
Definition uint_ceildiv (a b : Z) : Z := u32 (u64 (u64 (a + b) - 1) / b).

(** sparse_array.rs:71-108; both allocations succeed. *)
Definition create (w h bw bh : Z) : option sparse :=
  if (w =? 0) || (h =? 0) || (bw =? 0) || (bh =? 0) then None
  else if (2 ^ 32 - 1) / bh / 4 <? bw then None
  else
    let ch := uint_ceildiv w bw in
    let cv := uint_ceildiv h bh in
    if (2 ^ 32 - 1) / cv <? ch then None
    else Some (mkS w h bw bh ch cv (fun _ => None)).

(** sparse_array.rs:125-138 *)
Definition is_region_valid (s : sparse) (x0 y0 x1 y1 : Z) : bool :=
  negb ((width s <=? x0) || (x1 <=? x0) || (width s <? x1) ||
        (height s <=? y0) || (y1 <=? y0) || (height s <? y1)).

(** One step of the loop over the columns (sparse_array.rs:176-186, 479-480) or
    over the rows (160-173, 482-483): the position, the number of positions
    covered, the offset in the block and the number of the block. The two loops
    have the same shape. [fuel] bounds the number of steps. *)
Record span := mkSpan { pos : Z; incr : Z; off : Z; blk : Z }.
Fixpoint spans (bs a0 a1 : Z) (fuel : nat) (a b : Z) : list span :=
  match fuel with
  | O => []
  | S fuel =>
      if a <? a1 then
        let i := if a =? a0 then u32 (bs - a0 mod bs) else bs in
        let o := u32 (bs - i) in
        let i := Z.min i (u32 (a1 - a)) in
        mkSpan a i o b :: spans bs a0 a1 fuel (u32 (a + i)) (u32 (b + 1))
      else []
  end.

(** sparse_array.rs:158-484: the order in which parts of blocks are visited. *)
Definition visits (s : sparse) (x0 y0 x1 y1 : Z) : list (span * span) :=
  flat_map (fun sy => map (fun sx => (sy, sx))
              (spans (block_width s) x0 x1 (Z.to_nat (x1 - x0)) x0 (x0 / block_width s)))
    (spans (block_height s) y0 y1 (Z.to_nat (y1 - y0)) y0 (y0 / block_height s)).

(** sparse_array.rs:187-191 *)
Definition block_index (s : sparse) (sy sx : span) : Z := u32 (u32 (blk sy * block_count_hor s) + blk sx).

(** Offsets of element [k] of line [j]: in the block (231-233 and
    [src_ptr += block_width]) and in the caller's buffer (235-240 and
    [dest_ptr += buf_line_stride]). *)
Definition in_block (s : sparse) (sy sx : span) (j k : Z) : Z :=
  off sy * block_width s + off sx + j * block_width s + k.
Definition in_buf (y0 x0 cs ls : Z) (sy sx : span) (j k : Z) : Z :=
  u32 (pos sy - y0) * ls + u32 (u32 (pos sx - x0) * cs) + j * ls + u32 (k * cs).

(** Loop unrolled four times, with a remainder loop (sparse_array.rs:284-308,
    309-337, 434-460). *)
Definition unrolled (n : Z) (one : Z -> mem -> mem) (m : mem) : mem :=
  let q := Z.land n (u32 (Z.lnot 3)) in
  let m := for_to 0 (q / 4) (fun i m =>
    let k := 4 * i in one (k + 3) (one (k + 2) (one (k + 1) (one k m)))) m in
  for_to q n one m.

(** One line of a copy out of a block (sparse_array.rs:234-357). *)
Definition read_line (cs yi xi : Z) (one : Z -> mem -> mem) (m : mem) : mem :=
  if cs =? 1 then for_to 0 xi one m
  else if xi =? 1 then one 0 m
  else if (yi =? 1) && (cs =? 2) then unrolled xi one m
  else if (8 <=? xi) && (cs =? 8) then unrolled xi one m
  else for_to 0 xi one m.

(** One line of a copy into a block (sparse_array.rs:377-477). *)
Definition write_line (cs xi : Z) (one : Z -> mem -> mem) (m : mem) : mem :=
  if cs =? 1 then for_to 0 xi one m
  else if xi =? 1 then one 0 m
  else if (8 <=? xi) && (cs =? 8) then unrolled xi one m
  else for_to 0 xi one m.

(** sparse_array.rs:192-358 *)
Definition read_visit (s : sparse) (x0 y0 cs ls : Z) (buf : mem) (v : span * span) : mem :=
  let '(sy, sx) := v in
  let at_ := in_buf y0 x0 cs ls sy sx in
  match data_blocks s (block_index s sy sx) with
  | None => for_to 0 (incr sy) (fun j buf => for_to 0 (incr sx) (fun k buf => upd buf (at_ j k) 0) buf) buf
  | Some b =>
      for_to 0 (incr sy) (fun j buf =>
        read_line cs (incr sy) (incr sx) (fun k buf => upd buf (at_ j k) (b (in_block s sy sx j k))) buf) buf
  end.

(** sparse_array.rs:139-486 with [is_read_op != 0], 488-511. *)
Definition read (s : sparse) (x0 y0 x1 y1 : Z) (buf : mem) (cs ls : Z) (forgiving : Z) : Z * mem :=
  if is_region_valid s x0 y0 x1 y1
  then (1, fold_left (read_visit s x0 y0 cs ls) (visits s x0 y0 x1 y1) buf)
  else (forgiving, buf).

Definition set_block (s : sparse) (i : Z) (b : mem) : sparse :=
  mkS (width s) (height s) (block_width s) (block_height s) (block_count_hor s) (block_count_ver s)
    (fun j => if j =? i then Some b else data_blocks s j).

(** sparse_array.rs:359-478; [None] if the block cannot be allocated. *)
Definition write_visit (alloc : Z -> bool) (x0 y0 cs ls : Z) (buf : mem) (s : sparse) (v : span * span) : option sparse :=
  let '(sy, sx) := v in
  let i := block_index s sy sx in
  let at_ := in_buf y0 x0 cs ls sy sx in
  let fill b := for_to 0 (incr sy) (fun j b =>
    write_line cs (incr sx) (fun k b => upd b (in_block s sy sx j k) (buf (at_ j k))) b) b in
  match data_blocks s i with
  | Some b => Some (set_block s i (fill b))
  | None => if alloc i then Some (set_block s i (fill (fun _ => 0))) else None
  end.

Fixpoint write_visits (alloc : Z -> bool) (x0 y0 cs ls : Z) (buf : mem) (vs : list (span * span)) (s : sparse) : Z * sparse :=
  match vs with
  | [] => (1, s)
  | v :: vs =>
      match write_visit alloc x0 y0 cs ls buf s v with
      | Some s => write_visits alloc x0 y0 cs ls buf vs s
      | None => (0, s)
      end
  end.

(** sparse_array.rs:139-486 with [is_read_op == 0], 513-536. *)
Definition write (alloc : Z -> bool) (s : sparse) (x0 y0 x1 y1 : Z) (buf : mem) (cs ls : Z) (forgiving : Z) : Z * sparse :=
  if is_region_valid s x0 y0 x1 y1
  then write_visits alloc x0 y0 cs ls buf (visits s x0 y0 x1 y1) s
  else (forgiving, s).
