(** C70: the events the block decoder gets are those the MEL segment codes. *)

From Coq Require Import ZArith List Bool Lia.
From Verif Require Import Ints HtModel HtSpec HtBits HtForward HtMel HtMelEvents.
Import ListNotations.
Local Open Scope Z_scope.

(** Start, first run, then [n] events; [Some None]: the block is refused. *)
Definition block_events (base : Z) (buf : list Z) (lcup scup : Z) (n : nat) : option (option (list bool)) :=
  match mel_init base buf lcup scup with
  | None => None
  | Some None => Some None
  | Some (Some m) =>
      match mel_get_run buf m with
      | None => None
      | Some (run, m) => match mel_events buf n run m with None => None | Some l => Some (Some l) end
      end
  end.
(** Bits the segment stands for: its bytes from [lcup - scup] up to the last but
    one of the block, the stuffed bits left out, ones without end after that. *)
Definition segment_bits (buf : list Z) (lcup scup : Z) (N : nat) : list bool :=
  mel_bits false (fix_last (firstn (Z.to_nat (scup - 1)) (skipn (Z.to_nat (lcup - scup)) buf)) ++ repeat 255 N).

(** C70. For every block, however it lies in memory: reading never leaves the
    block, and unless the block is refused every event is the coded one. *)
Theorem c70_events : forall base buf lcup scup n N, Forall byte buf -> 2 <= scup <= lcup -> lcup <= Z.of_nat (length buf) -> (4 * n + 8 <= N)%nat ->
  block_events base buf lcup scup n = Some None \/
  exists l, block_events base buf lcup scup n = Some (Some l) /\ length l = n /\ mel_syms n (mkMS 0 0 false (segment_bits buf lcup scup N)) = Some l.
Proof.
  intros base buf lcup scup n N B Sc Lc HN. unfold block_events, segment_bits. fold (seg buf (lcup - scup) (scup - 1)). fold (mseg buf (lcup - scup) (scup - 1)).
  pose proof (mel_init_ok base buf lcup scup N B Sc Lc ltac:(lia)) as P. cbn zeta in P. destruct (mel_init base buf lcup scup) as [[m |] |]; [| left; reflexivity | contradiction].
  right. destruct P as (rest & Q & L). destruct (get_run_ok buf m rest 0 _ [] B Q ltac:(lia)) as (c & m' & rest' & q' & k1 & S1 & E & Ms & Q' & L'). rewrite E.
  destruct (events_ok buf n c m' rest' k1 S1 q' _ B Q' ltac:(lia) (mstep_refill _ _ _ _ _ Ms)) as (l & E1 & E2). rewrite E1. exists l. split; [reflexivity |]. split; [| exact E2].
  clear - E1. revert c m' l E1. induction n as [| n IH]; intros c m l E; cbn [mel_events] in E; [injection E as <-; reflexivity |].
  destruct (mel_event buf c m) as [[[e r] m'] |]; [| discriminate]. destruct (mel_events buf n r m') as [l' |] eqn:E'; [| discriminate]. injection E as <-. cbn [length]. f_equal. exact (IH _ _ _ E').
Qed.
(** No block is refused in which every byte of the segment after 255 is 0x8F at
    most, and the last byte of the block too (true if the segments are no longer
    than 2303 bytes, of which it holds the high bits). *)
Theorem c70_accepted : forall base buf lcup scup n, Forall byte buf -> 2 <= scup <= lcup -> lcup <= Z.of_nat (length buf) ->
  (forall i, lcup - scup <= i < lcup - 2 -> nth (Z.to_nat i) buf 0 = 255 -> nth (Z.to_nat (i + 1)) buf 0 <= 143) -> nth (Z.to_nat (lcup - 1)) buf 0 <= 143 ->
  block_events base buf lcup scup n <> Some None.
Proof.
  intros base buf lcup scup n B Sc Lc T X. unfold block_events, mel_init. cbn zeta.
  set (m0 := mkMel (lcup - scup) 0 0 (scup - 1) false 0 0 0).
  pose proof (mel_start_accept buf lcup (Z.to_nat (4 - (base + (lcup - scup)) mod 4)) m0 B) as A. unfold m0 in A at 1 2 3 4 5 6. cbn [m_data m_size m_unstuff] in A.
  specialize (A ltac:(lia) ltac:(lia) Lc T X ltac:(discriminate)). destruct (mel_start buf (Z.to_nat (4 - (base + (lcup - scup)) mod 4)) m0) as [[m |] |]; [| contradiction | discriminate].
  destruct (mel_get_run buf _) as [[run m'] |]; [| discriminate]. destruct (mel_events buf n run m'); discriminate.
Qed.

(** A segment all ones gives no significant event; 0x00 first gives ones at once. *)
Example c70_quiet : block_events 1 [9; 255; 127; 7; 64] 5 4 6 = Some (Some [false; false; false; false; false; false]).
Proof. vm_compute. reflexivity. Qed.
Example c70_busy : block_events 0 [0; 16; 7; 64] 4 4 6 = Some (Some [true; true; true; true; true; true]).
Proof. vm_compute. reflexivity. Qed.
Example c70_mixed : block_events 3 [45; 200; 7; 64] 4 4 8 = Some (mel_syms 8 (mkMS 0 0 false (segment_bits [45; 200; 7; 64] 4 4 2))).
Proof. vm_compute. reflexivity. Qed.
(** Refused: 0x90 after 255. *)
Example c70_refused : block_events 0 [255; 144; 7; 64] 4 4 6 = Some None.
Proof. vm_compute. reflexivity. Qed.

Print Assumptions c70_events.
Print Assumptions c70_accepted.
