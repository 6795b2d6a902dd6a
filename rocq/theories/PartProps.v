(** C60: the tile-parts of a code-stream. *)

From Coq Require Import ZArith List Bool Lia.
From Verif Require Import Ints CioModel HdrModel PartModel PartSpec PartProofs PartSafe PartWrite.
Import ListNotations.
Local Open Scope Z_scope.

(** A conforming sequence of tile-parts -- those of a tile in their order, but
    the tiles mixed in any way, the number of tile-parts told in all, some or none
    of them -- is read to the end; each tile to be decoded is decoded exactly once,
    with the data of its tile-parts joined and the parameters their headers leave,
    as soon as it is known to be complete. *)
Theorem c60_read : forall {C R} (handle : Z -> Z -> C -> list Z -> option C) (use : Z -> C -> list Z -> option R)
    nb wanted strict seekable fails par ps res,
  ps <> [] -> sequence_ok nb ps ->
  (forall i, In i (order nb wanted ps) -> data_of i ps <> []) ->
  (forall i, In i (order nb wanted ps) -> exists c, par_of handle i (par i) ps = Some c /\ use i c (data_of i ps) = Some (res i)) ->
  decode_tiles handle use nb wanted strict seekable fails par (skipn 2 (body ps)) =
  Done (map (fun i => (i, res i)) (order nb wanted ps)).
Proof. intros. apply run; assumption. Qed.

(** The order has each wanted tile that occurs once. *)
Theorem c60_order : forall nb wanted ps, sequence_ok nb ps ->
  NoDup (order nb wanted ps) /\
  forall i, In i (order nb wanted ps) <-> wanted i = true /\ exists p, In p ps /\ q_tile p = i.
Proof.
  intros nb wanted ps (_ & H & _). split.
  - unfold order. apply nodup_app; [apply NoDup_filter, lasts_nodup | apply NoDup_filter, tiles_nodup |].
    intros i. rewrite !filter_In. intros [_ A] [_ B]. destruct (wanted i), (told i ps); cbn in *; discriminate.
  - intros i. rewrite (order_in nb wanted ps i H). split.
    + intros (W & M & _). split; [exact W |]. destruct (mine i ps) as [| p l] eqn:E; [contradiction |].
      assert (X : In p (mine i ps)) by (rewrite E; left; reflexivity). apply filter_In in X. destruct X as [X Y]. exists p. split; [exact X | apply Z.eqb_eq; exact Y].
    + intros (W & p & P & Q). split; [exact W |]. split.
      * intros X. assert (Y : In p (mine i ps)) by (apply filter_In; split; [exact P | apply Z.eqb_eq; exact Q]). rewrite X in Y. destruct Y.
      * rewrite Forall_forall in H. destruct (H p P) as (B & _). lia.
Qed.

(** What the encoder writes for some tiles, each in at most 255 tile-parts, is
    read back tile by tile. *)
Theorem c60_written : forall {C R} (handle : Z -> Z -> C -> list Z -> option C) (use : Z -> C -> list Z -> option R)
    wanted strict seekable fails par ts res,
  Forall tile_ok ts -> ts <> [] -> len ts <= 65535 ->
  (forall i t, 0 <= i -> nth_error ts (Z.to_nat i) = Some t -> wanted i = true ->
    exists c, after handle i (par i) (flat_map fst t) = Some c /\ use i c (flat_map snd t) = Some (res i)) ->
  decode_tiles handle use (len ts) wanted strict seekable fails par (skipn 2 (write_tiles 0 (map raw ts))) =
  Done (map (fun i => (i, res i)) (filter wanted (tiles (len ts)))).
Proof. intros. apply written_read; assumption. Qed.

(** Whatever the bytes, the reader ends (none of its loops needs more rounds than
    there are bytes) and stays within what it has allocated.  (Streams of this
    crate; for others see [c60_custom_refuted].) *)
Theorem c60_safe : forall {C R} (handle : Z -> Z -> C -> list Z -> option C) (use : Z -> C -> list Z -> option R)
    nb wanted strict seekable par bytes, Forall (fun b => 0 <= b < 256) bytes ->
  decode_tiles handle use nb wanted strict seekable false par bytes = Fail \/
  exists l, decode_tiles handle use nb wanted strict seekable false par bytes = Done l.
Proof.
  intros C R handle use nb wanted strict seekable par bytes H. pose proof (safe handle use nb wanted strict seekable par bytes H) as K.
  destruct (decode_tiles handle use nb wanted strict seekable false par bytes); try contradiction; [right; eexists; reflexivity | left; reflexivity].
Qed.

(** ** Examples *)

(** Handlers that keep the segments, tiles that are their bytes. *)
Definition keep (m i : Z) (c : list Z) (b : list Z) : option (list Z) := Some (c ++ b).
Definition show (i : Z) (c : list Z) (b : list Z) : option (list Z * list Z) := Some (c, b).

(** Three tiles: 1 in two tile-parts around those of 0, its number told only in
    the second; 2 without number. *)
Definition mixed : list part :=
  [mkPart 1 0 0 [(COM, [0; 1; 7])] [10; 11]; mkPart 2 0 0 [] [20]; mkPart 0 0 2 [] [1]; mkPart 0 1 2 [(PLT, [0; 5])] [2; 3]; mkPart 1 1 2 [] [12]].
Example mixed_order : order 4 (fun _ => true) mixed = [0; 1; 2].
Proof. reflexivity. Qed.
Example mixed_read :
  decode_tiles keep show 4 (fun _ => true) true true false (fun _ => []) (skipn 2 (body mixed)) =
  Done [(0, ([0; 5], [1; 2; 3])); (1, ([0; 1; 7], [10; 11; 12])); (2, ([], [20]))].
Proof. vm_compute. reflexivity. Qed.
Example mixed_part :
  decode_tiles keep show 4 (fun i => i =? 1) true false false (fun _ => []) (skipn 2 (body mixed)) = Done [(1, ([0; 1; 7], [10; 11; 12]))].
Proof. vm_compute. reflexivity. Qed.
Example mixed_ok : sequence_ok 4 mixed.
Proof.
  split; [lia |]. split; [| split; [| split]].
  - repeat (apply Forall_cons || apply Forall_nil); unfold part_ok; cbn [q_tile q_of q_segs q_data]; (split; [lia |]);
      (split; [vm_compute; auto |]); (split; [repeat (apply Forall_cons || apply Forall_nil); (split; [unfold in_header; cbn; tauto | cbn; lia]) | vm_compute; reflexivity]).
  - intros a p b E. do 5 (destruct a as [| x a]; [injection E as <- _; reflexivity | injection E as <- E]). destruct a; discriminate.
  - intros i. unfold mine, mixed. cbn [filter q_tile]. repeat match goal with |- context [?x =? i] => destruct (x =? i) end; cbn; lia.
  - intros i. unfold data_of, mine, mixed. cbn [filter q_tile]. repeat match goal with |- context [?x =? i] => destruct (x =? i) end; cbn; lia.
Qed.

(** A written file of an encoder that counts the tile-parts from 0 (TNsot one
    too small) is still read whole if the stream can be searched: the look-ahead
    of j2k.rs:8926. *)
Example miscounted :
  decode_tiles keep show 1 (fun _ => true) true true false (fun _ => []) (skipn 2 (body [mkPart 0 0 1 [] [1]; mkPart 0 1 1 [] [2]])) = Done [(0, ([], [1; 2]))].
Proof. vm_compute. reflexivity. Qed.

(** ** What does not hold *)

Definition many (n : nat) : written := map (fun k => ([], [Z.of_nat k mod 256])) (seq 0 n).

(** Nothing keeps the encoder from dividing a tile into more than 255 tile-parts
    (as many as there are components, or layers); their number is written modulo
    256, and the decoder takes the first of 257 for the whole tile, silently (or
    the first two, if it can search the stream). *)
Theorem c60_count_refuted : exists t : written, len t = 257 /\ len (flat_map snd t) = 257 /\
  decode_tiles keep show 1 (fun _ => true) true false false (fun _ => []) (skipn 2 (write_tiles 0 [raw t])) = Done [(0, ([], [0]))] /\
  decode_tiles keep show 1 (fun _ => true) true true false (fun _ => []) (skipn 2 (write_tiles 0 [raw t])) = Done [(0, ([], [0; 1]))].
Proof. exists (many 257). vm_compute. repeat split. Qed.

(** A tile without any data (conforming where a tile has no samples at its
    resolution of the components) is an error for the whole image. *)
Theorem c60_empty_refuted : exists ps, sequence_ok 1 ps /\
  decode_tiles keep show 1 (fun _ => true) true true false (fun _ => []) (skipn 2 (body ps)) = Fail.
Proof.
  exists [mkPart 0 0 1 [] []]. split; [| vm_compute; reflexivity]. split; [lia |]. split; [| split; [| split]].
  - repeat (apply Forall_cons || apply Forall_nil); unfold part_ok; cbn [q_tile q_of q_segs q_data]; (split; [lia |]);
      (split; [vm_compute; auto |]); (split; [repeat (apply Forall_cons || apply Forall_nil); (split; [unfold in_header; cbn; tauto | cbn; lia]) | vm_compute; reflexivity]).
  - intros a p b E. destruct a as [| x a]; [injection E as <- _; reflexivity | injection E as _ E; destruct a; discriminate].
  - intros i. unfold mine. cbn [filter q_tile]. destruct (0 =? i); cbn; lia.
  - intros i. unfold data_of, mine. cbn [filter q_tile]. destruct (0 =? i); cbn; lia.
Qed.

(** A stream of the application's own whose read function says "failed" at the
    end (types.rs:229-233, stream.rs:344-365), and decoding that is not strict: a
    cut tile-part sets the size of the tile's data to 2^32 - 1 (j2k.rs:4410), far
    beyond what was allocated for it. *)
Theorem c60_custom_refuted : exists bytes, Forall (fun b => 0 <= b < 256) bytes /\
  decode_tiles keep show 1 (fun _ => true) false false true (fun _ => []) bytes = Bad.
Proof.
  exists (firstn 13 (skipn 2 (write_tiles 0 [raw [([], [1; 2; 3; 4])]]))). split; [| vm_compute; reflexivity].
  vm_compute firstn. repeat constructor; discriminate.
Qed.

Print Assumptions c60_read.
Print Assumptions c60_order.
Print Assumptions c60_written.
Print Assumptions c60_safe.
Print Assumptions c60_count_refuted.
Print Assumptions c60_empty_refuted.
Print Assumptions c60_custom_refuted.
