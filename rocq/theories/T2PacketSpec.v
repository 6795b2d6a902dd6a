(** What a packet is to convey, for Property C20. *)

From Coq Require Import ZArith List Bool.
From Verif Require Import BioSpec T2PacketModel.
Import ListNotations.
Local Open Scope Z_scope.

Definition termall (sty : Z) : bool := negb (Z.land sty 4 =? 0).
Definition lazy (sty : Z) : bool := negb (Z.land sty 1 =? 0).

(** Number of the first coding pass of codeword segment [j].  If every pass is
    terminated, segment [j] is pass [j].  With selective bypass the first
    segment has ten passes (four bit-planes) and then segments of two raw
    passes and of one cleanup pass alternate.  Otherwise one segment takes
    109 passes, the most a code-block can have. *)
Definition seg_start (sty : Z) (j : nat) : nat :=
  if termall sty then j
  else if lazy sty then match j with O => 0%nat | S i => (10 + 3 * (i / 2) + 2 * (i mod 2))%nat end
  else (109 * j)%nat.

(** Pass [k] is the last of a segment. *)
Definition ends (sty : Z) (k : nat) : Prop := exists j, S k = seg_start sty (S j).

Definition lsum (l : list pass) : Z := fold_right (fun p a => p_len p + a) 0 l.

(** Passes of a block in its first [n] layers. *)
Definition total (n : nat) (c : ecblk) : nat := list_sum (map (fun i => l_passes (layer_of i c)) (seq 0 n)).

(** Bytes of a block in its first [n] layers. *)
Definition content (n : nat) (c : ecblk) : list Z :=
  concat (map (fun i => if (l_passes (layer_of i c) =? 0)%nat then [] else l_data (layer_of i c)) (seq 0 n)).

(** A code-block as block coding and rate allocation leave it, in a sub-band of
    [nb] bit-planes: the coder was terminated where the style says (and possibly
    after its last pass), and a layer's bytes are those of its passes. *)
Definition block_ok (sty : Z) (nlay : nat) (nb : Z) (c : ecblk) : Prop :=
  - 2 ^ 31 <= e_numbps c < 2 ^ 31 /\ (total nlay c <> 0%nat -> 0 <= e_numbps c) /\ 0 <= nb - e_numbps c <= 998 /\ nb < 2 ^ 31 /\
  (total nlay c <= List.length (e_pass c))%nat /\
  (forall k, (S k < List.length (e_pass c))%nat -> (p_term (nth k (e_pass c) (mkPass 0 false)) = true <-> ends sty k)) /\
  Forall (fun p => 0 <= p_len p) (e_pass c) /\ lsum (e_pass c) < 2 ^ 32 /\
  forall i, (i < nlay)%nat ->
    let ly := layer_of i c in
    (l_passes ly <= 164)%nat /\ Z.of_nat (List.length (l_data ly)) < 2 ^ 25 /\ Forall byte_range (l_data ly) /\
    (l_passes ly <> 0%nat ->
     Z.of_nat (List.length (l_data ly)) = lsum (firstn (l_passes ly) (skipn (total i c) (e_pass c)))).

(** What the decoder is to know of the block after [n] layers: the segments that
    have begun, with their passes and lengths so far, the zero bit-planes, and
    all bytes in order. *)
Definition known (sty : Z) (n : nat) (nb : Z) (c : ecblk) (d : dblk) : Prop :=
  let p := total n c in
  (forall j, (seg_start sty j < p)%nat <-> (j < d_numsegs d)%nat) /\
  d_realsegs d = d_numsegs d /\
  (p <> 0%nat -> d_numbps d = e_numbps c /\ d_mb d = nb) /\
  (forall j, (j < d_numsegs d)%nat ->
     let m := (Nat.min p (seg_start sty (S j)) - seg_start sty j)%nat in
     s_real (nth j (d_segs d) seg0) = Z.of_nat m /\
     s_len (nth j (d_segs d) seg0) = lsum (firstn m (skipn (seg_start sty j) (e_pass c)))) /\
  concat (d_chunks d) = content n c.
