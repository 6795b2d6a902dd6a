(** C75, C76: the packed packet headers of the main header and of tile-part headers. *)

From Coq Require Import ZArith List Bool Lia.
From Verif Require Import Ints CioModel PpxModel PpxSpec PpxMerge PpxRead.
Import ListNotations.
Local Open Scope Z_scope.

(** ** C75 *)

(** Whatever the segments hold, nothing is written outside the buffer; the merged
    headers are the packs in order without their lengths, and segments that are
    no such packs are refused, as are packs of 2^32 bytes or none. *)
Theorem c75_merge : forall l, (forall d b, In (Some d) l -> In b d -> 0 <= b < 256) ->
  exists r, merge_ppm l = Some r /\
    forall buf, r = Some buf <-> exists packs, cut packs (present l) /\ buf = concat packs /\ 0 < Z.of_nat (length buf) < 2 ^ 32.
Proof.
  intros l O'. assert (O : Forall (Forall octet) (present l)) by (apply present_in; intros d I; apply Forall_forall; intros b J; exact (O' d b I J)).
  assert (F : forall packs, cut packs (present l) -> 0 < total_of packs < 2 ^ 32 -> merge_ppm l = Some (Some (concat packs))).
  { intros packs (groups & E & P) B. unfold merge_ppm. change 0 with (len []) at 2. rewrite (pass1_cut l groups [] packs 0 P E) by (change (len []) with 0; lia). change (negb (0 =? 0)) with false. cbv iota. rewrite Z.add_0_l. rewrite (proj2 (Z.eqb_neq _ _)) by lia.
    change 0 with (len []). rewrite (pass2_cut l groups [] packs (total_of packs) [] P E); [reflexivity | lia | change (len []) with 0; lia]. }
  assert (G : forall buf, merge_ppm l = Some (Some buf) -> exists packs, cut packs (present l) /\ buf = concat packs /\ 0 < Z.of_nat (length buf) < 2 ^ 32).
  { intros buf M. pose proof M as M'. unfold merge_ppm in M. destruct (pass1 l 0 0) as [[total r] |] eqn:E; [| discriminate]. destruct (Z.eqb_spec r 0) as [-> | N]; [| discriminate]. cbn [negb] in M. destruct (Z.eqb_spec total 0) as [-> | N]; [discriminate |].
    destruct (pass1_packs l 0 total 0 O E) as (groups & rest & packs & P1 & P2 & P3 & P4 & P5); [lia | lia |]. apply len_zero in P3. subst rest. pose proof (len_pos (concat packs)) as Lp. fold (total_of packs) in Lp.
    assert (C : cut packs (present l)) by (exists groups; split; [exact P2 | exact P1]). rewrite (F packs C) in M' by lia. injection M' as <-. exists packs. split; [exact C |]. split; [reflexivity |]. unfold total_of, len in *. lia. }
  assert (S : exists r, merge_ppm l = Some r).
  { unfold merge_ppm. destruct (pass1 l 0 0) as [[total r] |] eqn:E; [| eauto]. destruct (Z.eqb_spec r 0) as [-> | N]; [| eexists; reflexivity]. cbn [negb]. destruct (Z.eqb_spec total 0) as [-> | N]; [eauto |].
    destruct (pass1_packs l 0 total 0 O E) as (groups & rest & packs & P1 & P2 & P3 & P4 & P5); [lia | lia |]. apply len_zero in P3. subst rest. pose proof (len_pos (concat packs)) as Lp. fold (total_of packs) in Lp. change 0 with (len []).
    rewrite (pass2_cut l groups [] packs total [] P1 P2); [eauto | lia | change (len []) with 0; lia]. }
  destruct S as (r & S). exists r. split; [exact S |]. intros buf. split; [intros ->; exact (G buf S) |]. intros (packs & C & -> & B). rewrite (F packs C) in S by (unfold total_of, len; lia). injection S as <-. reflexivity.
Qed.
Print Assumptions c75_merge.

(** Packs without any byte in them are well formed, but refused. *)
Theorem c75_empty_refuted : cut [[]; []] [[0; 0; 0; 0; 0; 0; 0; 0]] /\ merge_ppm [Some [0; 0; 0; 0; 0; 0; 0; 0]] = Some None.
Proof. split; [exists [[[0; 0; 0; 0]; [0; 0; 0; 0]]]; split; reflexivity | reflexivity]. Qed.

(** Packs of 3 and 2 bytes, cut inside the first and after the second length. *)
Example c75_two : merge_ppm [Some [0; 0; 0; 3; 7]; None; Some [8; 9; 0; 0; 0; 2]; Some [5; 6]] = Some (Some [7; 8; 9; 5; 6]).
Proof. reflexivity. Qed.
(** Cut inside a length; a pack that does not end; one of 2^32 - 1 bytes after another. *)
Example c75_bad : merge_ppm [Some [0; 0]; Some [0; 1; 7]] = Some None /\ merge_ppm [Some [0; 0; 0; 3; 7; 8]] = Some None /\ merge_ppm [Some [0; 0; 0; 1; 7; 255; 255; 255; 255; 1]] = Some None.
Proof. repeat split; reflexivity. Qed.

(** ** C76 *)

(** Segments with different indices, read in any order, give their data by rising
    index; a segment without data, or with an index there was before, is refused. *)
Theorem c76_read : forall segs, (forall s b, In s segs -> In b s -> 0 <= b < 256) ->
  let good := (forall s, In s segs -> (2 <= length s)%nat) /\ NoDup (map (hd 0) segs) in
  (good -> exists l, read_all [] segs = Some l /\ present l = by_index segs /\ (length l <= 256)%nat) /\ (~ good -> read_all [] segs = None).
Proof.
  intros segs O' good. assert (O : Forall (Forall octet) segs) by (apply Forall_forall; intros s I; apply Forall_forall; intros b J; exact (O' s b I J)).
  assert (Q : good <-> fine segs). { unfold good, fine. rewrite Forall_forall. split; intros [A B]; (split; [| exact B]); intros s I; specialize (A s I); unfold len in *; lia. }
  split; intros H; [apply (read_all_ok segs O), Q, H | apply (read_all_bad segs O); rewrite <- Q; exact H].
Qed.
Print Assumptions c76_read.

(** The merged headers of a tile: the data by rising index. *)
Theorem c76_ppt : forall segs, segs <> [] -> (forall s b, In s segs -> In b s -> 0 <= b < 256) -> (forall s, In s segs -> (2 <= length s)%nat /\ Z.of_nat (length s) <= 65533) -> NoDup (map (hd 0) segs) ->
  exists l, read_all [] segs = Some l /\ merge_ppt false true l = Some (Some (concat (by_index segs))) /\ merge_ppt true true l = Some None.
Proof.
  intros segs Ne O' B N. destruct (proj1 (c76_read segs O') (conj (fun s I => proj1 (B s I)) N)) as (l & R & P & L). exists l. split; [exact R |]. split; [| reflexivity].
  assert (M : len (concat (present l)) <= 256 * 65532).
  { apply Z.le_trans with (Z.of_nat (length (present l)) * 65532); [apply concat_most | pose proof (present_count l); lia]. apply Forall_forall. intros d I. rewrite P in I. apply in_by in I. destruct I as (i & I). apply B in I. cbn [length] in I. unfold len. lia. }
  unfold merge_ppt. rewrite ppt_size_is by lia. cbv zeta. cbn [negb].
  destruct (Z.eqb_spec (len (concat (present l))) 0) as [K | K].
  - exfalso. destruct segs as [| s segs]; [contradiction |]. destruct s as [| i d]; [destruct (B [] (or_introl eq_refl)); cbn in *; lia |]. assert (I : In d (present l)).
    { rewrite P. apply in_flat_map. pose proof (O' (i :: d) i (or_introl eq_refl) (or_introl eq_refl)). exists (Z.to_nat i). split; [apply in_seq; lia |]. cbn [with_index flat_map]. rewrite Z2Nat.id, Z.eqb_refl by lia. left. reflexivity. }
    apply in_split in I. destruct I as (a & b & I). rewrite I, concat_app in K. cbn [concat] in K. rewrite !len_app in K. pose proof (len_pos (concat a)). pose proof (len_pos (concat b)). destruct (B (i :: d) (or_introl eq_refl)) as [B1 _]. cbn [length] in B1. unfold len in *. lia.
  - rewrite ppt_copy_is by (change (len []) with 0; lia). rewrite <- P. reflexivity.
Qed.
Print Assumptions c76_ppt.

Example c76_three : read_all [] [[4; 1; 2]; [0; 3]; [2; 4; 5]] = Some [Some [3]; None; Some [4; 5]; None; Some [1; 2]].
Proof. reflexivity. Qed.
Example c76_merged : merge_ppt false true [Some [3]; None; Some [4; 5]; None; Some [1; 2]] = Some (Some [3; 4; 5; 1; 2]).
Proof. reflexivity. Qed.
Example c76_bad : read_all [] [[4; 1; 2]; [4; 3]] = None /\ read_all [] [[4]] = None.
Proof. split; reflexivity. Qed.
