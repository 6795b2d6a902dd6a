(** Model of the server glue in src/lib.rs. *)

From Coq Require Import List String Arith Bool.
Import ListNotations.

(** ** Response bodies (src/lib.rs:83-104) *)

(** src/lib.rs:83-87 [ResponseBody]; the marker field has no run-time content. *)
Record response_body : Type := mkBody { data : option string }.

(** src/lib.rs:89-93 [ResponseBody::new]. *)
Definition body_new (b : string) : response_body := mkBody (Some b).

(** src/lib.rs:98-103 [poll_frame]: always ready; [None] is end of stream,
    [Some d] a data frame.  [Option::take] leaves [None] behind. *)
Definition poll_frame (b : response_body) : option string * response_body :=
  (data b, mkBody None).

Fixpoint poll_frames (n : nat) (b : response_body) : list (option string) :=
  match n with
  | 0 => []
  | S n => let '(f, b) := poll_frame b in f :: poll_frames n b
  end.

(** ** Transport reads (src/lib.rs:61-81) *)

(** What [TcpStream::poll_read] may answer for a buffer. *)
Inductive transport_read : Type :=
| TPending
| TRead (bytes : list nat)     (** n bytes were stored at the start of the buffer *)
| TError (code : nat).

(** What hyper observes from [poll_read]: pending, success with the bytes the
    cursor was advanced over, or an error. *)
Inductive hyper_read : Type :=
| HPending
| HRead (bytes : list nat)
| HError (code : nat).

(** src/lib.rs:62-80 [HyperStream::poll_read].  [cap] is the length of the
    unfilled part of hyper's buffer.  The buffer is zeroed first, the transport
    overwrites a prefix, and on success the cursor is advanced over that prefix:
    hyper sees the first [n] bytes of the buffer.  On failure the result is
    still [Ok(())] and the cursor does not move.  (Memory is modelled as the
    list of buffer bytes; the transport never reports more than [cap] bytes.) *)
Definition poll_read (cap : nat) (t : transport_read) : hyper_read :=
  match t with
  | TPending => HPending
  | TRead bytes =>
      let buffer := repeat 0 cap in
      let buffer := bytes ++ skipn (List.length bytes) buffer in
      HRead (firstn (List.length bytes) buffer)
  | TError _ => HRead []
  end.

(** ** Accept loop and connection limit (src/lib.rs:106-138, 151-178) *)

(** State of [serve_http2] on one executor.  [avail] is the semaphore count;
    [waiting] are the spawned connection tasks that have not obtained a permit,
    in the order in which they queue; [serving] hold a permit; [finished] are
    done.  Connections are numbered in order of acceptance.  [running] is false
    once [serve_http2] returned an error (and [start] unwrapped it). *)
Record server : Type := mkServer {
  running : bool;
  avail : nat;
  waiting : list nat;
  serving : list nat;
  finished : list nat;
  accepted : nat
}.

(** src/lib.rs:118-119. *)
Definition server_init (max_connections : nat) : server :=
  mkServer true max_connections [] [] [] 0.

Inductive event : Type :=
| EAccept            (** accept succeeds and local_addr succeeds (l.125-134) *)
| EAcceptError       (** accept fails (l.122-124) *)
| ELocalAddrError    (** accept succeeds but local_addr fails (l.126) *)
| EGrant             (** the semaphore hands a permit to the first waiter (l.130) *)
| EFinish (c : nat). (** serve_connection ends, dropping the permit (l.131-134) *)

(** One step; [None] when the event cannot happen.  The semaphore (glommio) is
    modelled by its documented behaviour: counting, first come first served. *)
Definition server_step (s : server) (e : event) : option server :=
  match e with
  | EAccept =>
      if running s then
        Some (mkServer true (avail s) (waiting s ++ [accepted s]) (serving s)
                (finished s) (S (accepted s)))
      else None
  | EAcceptError | ELocalAddrError =>
      if running s then
        Some (mkServer false (avail s) (waiting s) (serving s) (finished s) (accepted s))
      else None
  | EGrant =>
      match waiting s, avail s with
      | c :: w, S a => Some (mkServer (running s) a w (c :: serving s) (finished s) (accepted s))
      | _, _ => None
      end
  | EFinish c =>
      if existsb (Nat.eqb c) (serving s) then
        Some (mkServer (running s) (S (avail s)) (waiting s)
                (remove Nat.eq_dec c (serving s)) (c :: finished s) (accepted s))
      else None
  end.

(** Executions: every event of the list was possible when it happened. *)
Fixpoint server_run (s : server) (l : list event) : option server :=
  match l with
  | [] => Some s
  | e :: r => match server_step s e with Some s' => server_run s' r | None => None end
  end.
