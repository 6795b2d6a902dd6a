(** Model of the tile-part lengths in the main header: the TLM segment is written with
    zeros, the lengths are collected while tile-parts are written, and put into the
    segment at the end (j2k.rs:425-461, 902-984, 3451-3539, 4781-4796, 12655-12905,
    12907-12954).

    The destination is a list of bytes with a position.  The bytes of a tile-part and the
    numbers of tile-parts of the progressions of a tile ([opj_j2k_get_num_tp]) are
    parameters.  [None]: refused, or a write outside an array. *)

From Coq Require Import ZArith List Bool.
From Verif Require Import Ints HdrModel.
Import ListNotations.
Local Open Scope Z_scope.

Record out := Out { o_bytes : list Z; o_pos : nat }.
(** Write at the position; seek. *)
Definition put_out (d : list Z) (o : out) : out :=
  Out (firstn (o_pos o) (o_bytes o) ++ d ++ skipn (o_pos o + length d) (o_bytes o)) (o_pos o + length d).
Definition seek (p : nat) (o : out) : out := Out (o_bytes o) p.

(** j2k.rs:902-984 [opj_j2k_calculate_tp]: [counts] has the numbers of tile-parts of the
    progressions, tile by tile. *)
Definition calculate_tp (counts : list (list Z)) : Z :=
  fold_left (fun n cs => fold_left (fun n c => u32 (n + c)) cs n) counts 0.

(** [m_tlm_sot_offsets_buffer], [m_tlm_sot_offsets_current] *)
Record lens := Lens { n_buf : list Z; n_cur : nat }.
Definition put_buf (d : list Z) (s : lens) : option lens :=
  if (n_cur s + length d <=? length (n_buf s))%nat
  then Some (Lens (firstn (n_cur s) (n_buf s) ++ d ++ skipn (n_cur s + length d) (n_buf s)) (n_cur s + length d)) else None.
(** j2k.rs:425-461 [opj_j2k_update_tlm] *)
Definition update_tlm (is_byte : bool) (tile size : Z) (s : lens) : option lens :=
  match put_buf (be (if is_byte then 1 else 2) tile) s with
  | None => None
  | Some s => put_buf (be 4 size) s
  end.

Section Parts.
(** The bytes of a tile-part: tile, progression, number in the progression. *)
Context (part : Z -> nat -> nat -> list Z).

(** One tile-part of a tile. *)
Definition write_part (is_byte : bool) (tile : Z) (pino k : nat) (st : out * lens) : option (out * lens) :=
  let '(o, s) := st in
  let d := part tile pino k in
  match update_tlm is_byte tile (u32 (Z.of_nat (length d))) s with
  | None => None
  | Some s => Some (put_out d o, s)
  end.
(** [while tilepartno < tot_num_tp]: [n] more from [k] on. *)
Fixpoint write_parts (is_byte : bool) (tile : Z) (pino k n : nat) (st : out * lens) : option (out * lens) :=
  match n with
  | O => Some st
  | S n => match write_part is_byte tile pino k st with None => None | Some st => write_parts is_byte tile pino (S k) n st end
  end.
Fixpoint write_progs (is_byte : bool) (tile : Z) (pino : nat) (cs : list Z) (st : out * lens) : option (out * lens) :=
  match cs with
  | [] => Some st
  | c :: cs => match write_parts is_byte tile pino 0 (Z.to_nat c) st with None => None | Some st => write_progs is_byte tile (S pino) cs st end
  end.
(** j2k.rs:12655-12733 [opj_j2k_write_first_tile_part] and 12735-12905
    [opj_j2k_write_all_tile_parts]; a tile has at least one progression. *)
Definition write_tile (is_byte : bool) (tile : Z) (cs : list Z) (st : out * lens) : option (out * lens) :=
  match cs with
  | [] => None
  | c :: cs =>
      match write_part is_byte tile 0 0 st with
      | None => None
      | Some st =>
          match write_parts is_byte tile 0 1 (Z.to_nat (c - 1)) st with
          | None => None
          | Some st => write_progs is_byte tile 1 cs st
          end
      end
  end.
Fixpoint write_tiles (is_byte : bool) (tile : Z) (counts : list (list Z)) (st : out * lens) : option (out * lens) :=
  match counts with
  | [] => Some st
  | cs :: counts => match write_tile is_byte tile cs st with None => None | Some st => write_tiles is_byte (tile + 1) counts st end
  end.

(** j2k.rs:12907-12954 [opj_j2k_write_updated_tlm]: [start] is [m_tlm_start]. *)
Definition write_updated_tlm (is_byte : bool) (total : Z) (start : nat) (s : lens) (o : out) : option out :=
  let size := Z.to_nat (u32 ((if is_byte then 5 else 6) * total)) in
  if (length (n_buf s) <? size)%nat then None else
  let p := o_pos o in
  Some (seek p (put_out (firstn size (n_buf s)) (seek (6 + start) o))).

(** The procedures of the encoder, as far as they write: [pre] is the main header before
    the TLM segment, [post] the rest of it, [buf] what the allocated memory holds. *)
Definition write_stream (pre post : list Z) (counts : list (list Z)) (buf : list Z) : option out :=
  let total := calculate_tp counts in
  let is_byte := total <=? 255 in
  let o := put_out pre (Out [] 0) in
  let start := o_pos o in
  match write_tlm total (repeat 0 (Z.to_nat (u32 ((if is_byte then 5 else 6) * total)))) with
  | None => None
  | Some tlm =>
      match write_tiles is_byte 0 counts (put_out post (put_out tlm o), Lens (firstn (Z.to_nat (u32 (6 * total))) buf) 0) with
      | None => None
      | Some (o, s) => write_updated_tlm is_byte total start s (put_out (be 2 65497) o)
      end
  end.
End Parts.
