(** Model of the writing side of stream.rs: a stream over a buffered writer over
    a destination given by callbacks, and (with callbacks that always succeed)
    over a file.

    Assumed of the standard library (its source, [std::io::BufWriter]): the
    methods are as written out below; [write_all] is the default method of the
    [Write] trait, since [StreamInner] only implements [write] and [flush].
    Assumed of the callbacks: a write that replies [r >= 0] has taken the first
    [min r n] of the [n] bytes offered, one that replies a negative number has
    taken none; a skip that does not reply -1 has moved by the whole distance.
    What they reply at which turn is left open. Not modelled: the offset that
    [CustomStream] keeps (stream.rs:67; it is only returned by seeks, and the
    returned value is dropped), errors of kind Interrupted (the callbacks cannot
    give one, stream.rs:131-148), overflow of 64-bit offsets. *)

From Coq Require Import ZArith List Bool.
Import ListNotations.
Local Open Scope Z_scope.

(** A file: writing bytes at a position, with zeros between the end and it. *)
Definition put (b : list Z) (p : nat) (l : list Z) : list Z :=
  match l with
  | [] => b
  | _ => firstn p b ++ repeat 0 (p - length b) ++ l ++ skipn (p + length l) b
  end.

(** stream.rs:60-68: the callbacks. [reply] gives the reply of the write callback
    by turn and number of bytes offered, [skips] that of the skip callback, if one is set; [seeks] tells
    whether a seek callback is set. *)
Record custom := Custom { reply : nat -> nat -> Z; skips : option (nat -> bool); seeks : bool }.
(** The user data: what was written, the position, and the turn. *)
Record dest := Dest { d_bytes : list Z; d_pos : nat; d_turn : nat }.

(** stream.rs:130-144 [CustomStream::write]; [None] is an error. *)
Definition inner_write (c : custom) (l : list Z) (d : dest) : option nat * dest :=
  let r := reply c (d_turn d) (length l) in
  if r <? 0 then (None, Dest (d_bytes d) (d_pos d) (S (d_turn d)))
  else let l' := firstn (Z.to_nat r) l in
       (Some (Z.to_nat r), Dest (put (d_bytes d) (d_pos d) l') (d_pos d + length l') (S (d_turn d))).

(** stream.rs:151-181 [CustomStream::seek] from the current position; [false] is
    an error. *)
Definition inner_seek (c : custom) (k : Z) (d : dest) : bool * dest :=
  match skips c with
  | None => (false, d)
  | Some f =>
      let p := Z.of_nat (d_pos d) + k in
      if f (d_turn d) && (0 <=? p)
      then (true, Dest (d_bytes d) (Z.to_nat p) (S (d_turn d)))
      else (false, Dest (d_bytes d) (d_pos d) (S (d_turn d)))
  end.

(** [BufWriter]: capacity, buffer, inner writer. *)
Record writer := Writer { w_cap : nat; w_buf : list Z; w_dest : dest }.

(** [BufWriter::flush_buf]; the fuel is the number of bytes in the buffer.
    [false] is an error. *)
Fixpoint flush_loop (c : custom) (fuel : nat) (buf : list Z) (d : dest) : bool * list Z * dest :=
  match buf, fuel with
  | [], _ => (true, [], d)
  | _, O => (false, buf, d)
  | _, S fuel =>
      match inner_write c buf d with
      | (None, d) => (false, buf, d)
      | (Some O, d) => (false, buf, d)
      | (Some n, d) => flush_loop c fuel (skipn n buf) d
      end
  end.
Definition flush_buf (c : custom) (w : writer) : bool * writer :=
  let '(ok, buf, d) := flush_loop c (length (w_buf w)) (w_buf w) (w_dest w) in
  (ok, Writer (w_cap w) buf d).

Definition buffer (l : list Z) (w : writer) : option nat * writer :=
  (Some (length l), Writer (w_cap w) (w_buf w ++ l) (w_dest w)).

(** [BufWriter::write] and [write_cold]; [None] is an error. *)
Definition buf_write (c : custom) (l : list Z) (w : writer) : option nat * writer :=
  let spare := (w_cap w - length (w_buf w))%nat in
  if (length l <? spare)%nat then buffer l w
  else
    let '(ok, w) := if (spare <? length l)%nat then flush_buf c w else (true, w) in
    if negb ok then (None, w)
    else if (w_cap w <=? length l)%nat
    then let '(r, d) := inner_write c l (w_dest w) in (r, Writer (w_cap w) (w_buf w) d)
    else buffer l w.

Inductive out := Done | Refused | Panicked.

(** [std::io::Write::write_all], default method. The slice [buf[n..]] panics if
    the writer claims more bytes than it was given. *)
Fixpoint write_all (c : custom) (fuel : nat) (l : list Z) (w : writer) : out * writer :=
  match l, fuel with
  | [], _ => (Done, w)
  | _, O => (Refused, w)
  | _, S fuel =>
      match buf_write c l w with
      | (None, w) => (Refused, w)
      | (Some O, w) => (Refused, w)
      | (Some n, w) => if (length l <? n)%nat then (Panicked, w) else write_all c fuel (skipn n l) w
      end
  end.

(** types.rs:229-233 *)
Record stream := Stream { m_writer : writer; m_stream_length : Z; m_byte_offset : Z }.

(** stream.rs:367-380 *)
Definition write (c : custom) (l : list Z) (s : stream) : out * stream :=
  match write_all c (length l) l (m_writer s) with
  | (Done, w) => (Done, Stream w (m_stream_length s) (m_byte_offset s + Z.of_nat (length l)))
  | (o, w) => (o, Stream w (m_stream_length s) (m_byte_offset s))
  end.

(** stream.rs:382-385, 146-148: flushing the custom stream itself does nothing. *)
Definition flush (c : custom) (s : stream) : out * stream :=
  let '(ok, w) := flush_buf c (m_writer s) in
  (if ok then Done else Refused, Stream w (m_stream_length s) (m_byte_offset s)).

(** stream.rs:211-225 with [BufWriter::seek]: flush, then seek. *)
Definition seek_relative (c : custom) (k : Z) (w : writer) : bool * writer :=
  let '(ok, w) := flush_buf c w in
  if ok then let '(ok, d) := inner_seek c k (w_dest w) in (ok, Writer (w_cap w) (w_buf w) d)
  else (false, w).

(** stream.rs:387-390 *)
Definition tell (s : stream) : Z := m_byte_offset s.

(** stream.rs:405-433 *)
Definition skip (c : custom) (k : Z) (s : stream) : out * stream :=
  if k <? 0 then (Refused, s)
  else if (0 <? m_stream_length s) && (m_stream_length s <? m_byte_offset s + k) then (Refused, s)
  else let '(ok, w) := seek_relative c k (m_writer s) in
       if ok then (Done, Stream w (m_stream_length s) (m_byte_offset s + k))
       else (Refused, Stream w (m_stream_length s) (m_byte_offset s)).

(** stream.rs:435-448 *)
Definition seek (c : custom) (o : Z) (s : stream) : out * stream :=
  let '(ok, w) := seek_relative c (o - m_byte_offset s) (m_writer s) in
  if ok then (Done, Stream w (m_stream_length s) o)
  else (Refused, Stream w (m_stream_length s) (m_byte_offset s)).

(** stream.rs:227-234, 450-452, 98-100 *)
Definition has_seek (c : custom) : bool := seeks c.

(** stream.rs:281-286 and 290-312: an output stream with a buffer of [cap] bytes.
    The length of an output stream is 0 unless the caller sets one. *)
Definition create (cap : nat) : stream := Stream (Writer cap [] (Dest [] 0 0)) 0 0.
