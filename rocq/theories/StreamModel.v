(** Model of the reading side of stream.rs over a seekable byte source (a file,
    or a custom stream with the same contract).

    Assumed of the standard library (documented contracts): a buffered read of
    [n > 0] bytes before the end of the source delivers between 1 and [n] of the
    next bytes, at the end 0; [read_exact] is the default method of the [Read]
    trait, since [StreamInner] only implements [read]; [seek_relative] moves the
    position and fails below 0. How many bytes each read delivers is left open
    ([chunk]). Reads fail only at the end of the source. Offsets do not
    overflow. *)

From Coq Require Import ZArith List Bool.
Import ListNotations.
Local Open Scope Z_scope.

(** The source behind the buffered reader; [turn] counts reads. *)
Record inner := mkInner { data : list Z; ipos : Z; turn : nat }.
Definition chunks := nat -> nat.

Definition remaining (s : inner) : list Z := skipn (Z.to_nat (ipos s)) (data s).

(** stream.rs:236-244 [StreamInner::read] *)
Definition inner_read (chunk : chunks) (s : inner) (n : nat) : list Z * inner :=
  let k := Nat.min n (Nat.min (length (remaining s)) (Nat.max 1 (chunk (turn s)))) in
  (firstn k (remaining s), mkInner (data s) (ipos s + Z.of_nat k) (S (turn s))).

(** [std::io::Read::read_exact], default method: [None] is UnexpectedEof. *)
Fixpoint read_exact (chunk : chunks) (fuel : nat) (s : inner) (n : nat) : option (list Z) * inner :=
  match n with
  | O => (Some [], s)
  | _ =>
      match fuel with
      | O => (None, s)
      | S fuel =>
          let '(bs, s) := inner_read chunk s n in
          match bs with
          | [] => (None, s)
          | _ => let '(r, s) := read_exact chunk fuel s (n - length bs) in
                 (match r with Some l => Some (bs ++ l) | None => None end, s)
          end
      end
  end.

(** stream.rs:211-225 [StreamInner::seek_relative]; [None] is an error. *)
Definition seek_relative (s : inner) (d : Z) : option inner :=
  if ipos s + d <? 0 then None else Some (mkInner (data s) (ipos s + d) (turn s)).

(** types.rs:229-233 *)
Record stream := mkStream { m_inner : inner; m_stream_length : Z; m_byte_offset : Z }.

(** stream.rs:344-365 *)
Definition read (chunk : chunks) (s : stream) (n : nat) : list Z * stream :=
  match read_exact chunk n (m_inner s) n with
  | (Some bs, i) => (bs, mkStream i (m_stream_length s) (m_byte_offset s + Z.of_nat n))
  | (None, i) =>
      let '(bs, i) := inner_read chunk i n in
      (bs, mkStream i (m_stream_length s) (m_byte_offset s + Z.of_nat (length bs)))
  end.

(** stream.rs:387-390 *)
Definition tell (s : stream) : Z := m_byte_offset s.

(** stream.rs:392-403; [None] is a panic. *)
Definition get_bytes_left (s : stream) : option Z :=
  if (0 <=? m_byte_offset s) && (m_byte_offset s <=? m_stream_length s)
  then Some (if m_stream_length s =? 0 then 0 else m_stream_length s - m_byte_offset s)
  else None.

(** stream.rs:405-433; [None] is an error. *)
Definition skip (s : stream) (count : Z) : option stream :=
  if count <? 0 then None
  else if (0 <? m_stream_length s) && (m_stream_length s <? m_byte_offset s + count) then None
  else match seek_relative (m_inner s) count with
       | Some i => Some (mkStream i (m_stream_length s) (m_byte_offset s + count))
       | None => None
       end.

(** stream.rs:435-448; [None] is an error. *)
Definition seek (s : stream) (offset : Z) : option stream :=
  match seek_relative (m_inner s) (offset - m_byte_offset s) with
  | Some i => Some (mkStream i (m_stream_length s) offset)
  | None => None
  end.

(** stream.rs:272-286: opening a file of contents [l]. *)
Definition open (l : list Z) : stream := mkStream (mkInner l 0 0) (Z.of_nat (length l)) 0.
