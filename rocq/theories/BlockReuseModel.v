(** Model of the storage of code-blocks in the decoder, which is used again from tile
    to tile: the array of a precinct (tcd.rs:1220-1278), a code-block in it
    (tcd.rs:1456-1504 [opj_tcd_code_block_dec_allocate]), its segments
    (t2.rs:1661-1712 [opj_t2_init_seg]) and its chunks (t2.rs:1488-1517). Every access
    is checked against what was allocated. *)

From Coq Require Import ZArith List Bool Arith.
From Verif Require Import Ints.
Import ListNotations.
Local Open Scope Z_scope.

(** types.rs:682-689 [opj_tcd_seg] *)
Record seg := mkSeg { s_len : Z; s_numpasses : Z; s_real : Z; s_maxpasses : Z; s_numnew : Z; s_newlen : Z }.
Definition zero_seg : seg := mkSeg 0 0 0 0 0 0.

(** types.rs:654-671 [opj_tcd_cblk_dec]: the numbers that say nothing about storage
    (x0, y0, x1, y1, Mb, numbps, numlenbits, numnewpasses, numsegs, real_num_segs)
    are together in [info]. *)
Record info := mkInfo { i_x0 : Z; i_y0 : Z; i_x1 : Z; i_y1 : Z; i_Mb : Z; i_numbps : Z; i_numlenbits : Z; i_numnewpasses : Z;
  i_numsegs : Z; i_real_num_segs : Z }.
Definition zero_info : info := mkInfo 0 0 0 0 0 0 0 0 0 0.
(** [b_segs] and [b_chunks] are what the pointers lead to, [None] is null;
    [b_decoded] is the decoded data of a block kept for later windows. *)
Record block := mkBlock { b_info : info; b_segs : option (list seg); b_max : Z; b_chunks : list (Z * Z); b_num : Z; b_alloc : Z; b_decoded : option (list Z) }.
Definition zero_block : block := mkBlock zero_info None 0 [] 0 0 None.

(** [Failed] is missing memory or a refusal, [Fault] an access outside. *)
Inductive result (A : Type) := Got (a : A) | Failed | Fault.
Arguments Got {A}. Arguments Failed {A}. Arguments Fault {A}.

(** tcd.rs:1451-1454, 1496-1500: the first [n] segments are zeroed. *)
Definition reinit (n : nat) (l : list seg) : option (list seg) :=
  if (n <=? length l)%nat then Some (repeat zero_seg n ++ skipn n l) else None.

(** tcd.rs:1467-1504. [mem] says whether there is memory. *)
Definition dec_allocate (mem : bool) (b : block) : result block :=
  match b_segs b with
  | None =>
      if mem then Got (mkBlock (b_info b) (Some (repeat zero_seg 10)) 10 (b_chunks b) (b_num b) (b_alloc b) (b_decoded b))
      else Failed
  | Some l =>
      match reinit (Z.to_nat (b_max b)) l with
      | None => Fault
      | Some l => Got (mkBlock zero_info (Some l) (b_max b) (b_chunks b) 0 (b_alloc b) None)
      end
  end.

(** tcd.rs:1341-1349: the place of the block. *)
Definition place (r : Z * Z * Z * Z) (b : block) : block :=
  let '(x0, y0, x1, y1) := r in
  let i := b_info b in
  mkBlock (mkInfo x0 y0 x1 y1 (i_Mb i) (i_numbps i) (i_numlenbits i) (i_numnewpasses i) (i_numsegs i) (i_real_num_segs i))
    (b_segs b) (b_max b) (b_chunks b) (b_num b) (b_alloc b) (b_decoded b).

Definition put {A} (l : list A) (i : nat) (x : A) : option (list A) :=
  if (i <? length l)%nat then Some (firstn i l ++ x :: skipn (S i) l) else None.

(** t2.rs:1691-1710: the most passes of a segment. *)
Definition maxpasses (sty : Z) (first : bool) (before : Z) : Z :=
  if negb (Z.land sty 4 =? 0) then 1
  else if negb (Z.land sty 1 =? 0) then if first then 10 else if (before =? 1) || (before =? 10) then 2 else 1
  else 109.

(** t2.rs:1661-1712. Ten segments are added if [index] is beyond the last. *)
Definition init_seg (mem : bool) (b : block) (index : nat) (sty : Z) (first : bool) : result block :=
  match b_segs b with
  | None => Fault
  | Some l =>
      let grown :=
        if b_max b <? Z.of_nat index + 1
        then if mem then Some (firstn (Z.to_nat (b_max b)) l ++ repeat zero_seg 10, u32 (b_max b + 10)) else None
        else Some (l, b_max b) in
      match grown with
      | None => Failed
      | Some (l, m) =>
          let before := if negb (Z.land sty 4 =? 0) || (Z.land sty 1 =? 0) || first then Some 0
                        else match index with O => None | S k => option_map s_maxpasses (nth_error l k) end in
          match before with
          | None => Fault
          | Some p =>
              match put l index (mkSeg 0 0 0 (maxpasses sty first p) 0 0) with
              | None => Fault
              | Some l => Got (mkBlock (b_info b) (Some l) m (b_chunks b) (b_num b) (b_alloc b) (b_decoded b))
              end
          end
      end
  end.

(** t2.rs:1488-1517: one more chunk; new memory is not zeroed, it has any contents. *)
Definition add_chunk (mem : option (list (Z * Z))) (b : block) (c : Z * Z) : result block :=
  let grown :=
    if b_num b =? b_alloc b then
      match mem with
      | None => None
      | Some junk =>
          let n := u32 (u32 (b_alloc b * 2) + 1) in
          let kept := firstn (Z.to_nat n) (b_chunks b) in
          Some (kept ++ firstn (Z.to_nat n - length kept) (junk ++ repeat (0, 0) (Z.to_nat n)), n)
      end
    else Some (b_chunks b, b_alloc b) in
  match grown with
  | None => Failed
  | Some (l, n) =>
      match put l (Z.to_nat (b_num b)) c with
      | None => Fault
      | Some l => Got (mkBlock (b_info b) (b_segs b) (b_max b) l (u32 (b_num b + 1)) n (b_decoded b))
      end
  end.

(** types.rs:612-624 [opj_tcd_precinct]: the blocks as allocated, and their size in
    bytes; a block has 80 bytes. *)
Definition block_bytes : Z := 80.
Record prec := mkPrec { p_blocks : option (list block); p_size : Z }.

(** tcd.rs:1220-1278: room for [n] blocks. *)
Definition room (mem : bool) (p : prec) (n : Z) : result prec :=
  if (2 ^ 32 - 1) / block_bytes <? n then Failed
  else
    let size := u32 (n * block_bytes) in
    match p_blocks p with
    | None => if 0 <? n then if mem then Got (mkPrec (Some (repeat zero_block (Z.to_nat (size / block_bytes)))) size) else Failed
              else if p_size p <? size then Fault else Got p
    | Some l =>
        if p_size p <? size then
          if mem then
            let kept := firstn (Z.to_nat (p_size p / block_bytes)) l in
            Got (mkPrec (Some (kept ++ repeat zero_block (Z.to_nat ((size - p_size p) / block_bytes)))) size)
          else Failed
        else Got p
    end.

(** tcd.rs:1307-1352: the blocks [i], [i + 1], ... are prepared, one for each place. *)
Fixpoint prepare (mem : nat -> bool) (l : list block) (i : nat) (places : list (Z * Z * Z * Z)) : result (list block) :=
  match places with
  | [] => Got l
  | r :: places =>
      match nth_error l i with
      | None => Fault
      | Some b =>
          match dec_allocate (mem i) b with
          | Fault => Fault
          | Failed => Failed
          | Got b => match put l i (place r b) with None => Fault | Some l => prepare mem l (S i) places end
          end
      end
  end.

(** The blocks of a precinct for the next tile. *)
Definition next (mem : bool) (mems : nat -> bool) (p : prec) (places : list (Z * Z * Z * Z)) : result prec :=
  match room mem p (Z.of_nat (length places)) with
  | Fault => Fault
  | Failed => Failed
  | Got p =>
      match p_blocks p with
      | None => match places with [] => Got p | _ => Fault end
      | Some l =>
          match prepare mems l 0 places with
          | Fault => Fault
          | Failed => Failed
          | Got l => Got (mkPrec (Some l) (p_size p))
          end
      end
  end.
