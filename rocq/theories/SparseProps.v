(** C26: the sparse array behaves as a plain two-dimensional array. *)

From Coq Require Import ZArith List Bool Lia.
From Verif Require Import Ints Mem SparseModel SparseProofs.
Import ListNotations.
Local Open Scope Z_scope.

(** The reference: a write request and its effect on a plain array [A]. *)
Record req := mkReq { rx0 : Z; ry0 : Z; rx1 : Z; ry1 : Z; rbuf : mem; rcs : Z; rls : Z; rforgiving : Z }.
Definition req_ok (r : req) : Prop := 0 <= rx0 r /\ 0 <= ry0 r /\ 0 <= rcs r /\ (rx1 r - rx0 r) * rcs r <= 2 ^ 32.
Definition accepted (w h : Z) (r : req) : bool :=
  (rx0 r <? rx1 r) && (rx1 r <=? w) && (ry0 r <? ry1 r) && (ry1 r <=? h).
Definition covers (r : req) (x y : Z) : bool :=
  (rx0 r <=? x) && (x <? rx1 r) && (ry0 r <=? y) && (y <? ry1 r).
Definition plain_write (w h : Z) (A : Z -> Z -> Z) (r : req) : Z -> Z -> Z :=
  fun x y => if accepted w h r && covers r x y then rbuf r ((y - ry0 r) * rls r + (x - rx0 r) * rcs r) else A x y.

Definition do_write (alloc : Z -> bool) (s : sparse) (r : req) : sparse :=
  snd (write alloc s (rx0 r) (ry0 r) (rx1 r) (ry1 r) (rbuf r) (rcs r) (rls r) (rforgiving r)).

(** A region outside the array, or empty, is refused and nothing changes. *)
Theorem c26_refused : forall alloc s x0 y0 x1 y1 buf cs ls forgiving,
  ~ (x0 < x1 <= width s /\ y0 < y1 <= height s) ->
  write alloc s x0 y0 x1 y1 buf cs ls forgiving = (forgiving, s) /\
  read s x0 y0 x1 y1 buf cs ls forgiving = (forgiving, buf).
Proof.
  intros alloc s x0 y0 x1 y1 buf cs ls f H. unfold write, read.
  destruct (is_region_valid s x0 y0 x1 y1) eqn:E; [| split; reflexivity].
  apply valid_region in E. contradiction.
Qed.

Theorem c26_write : forall alloc s x0 y0 x1 y1 buf cs ls forgiving, wf s -> 0 <= x0 < x1 -> 0 <= y0 < y1 ->
  x1 <= width s -> y1 <= height s -> 0 <= cs -> (x1 - x0) * cs <= 2 ^ 32 ->
  let '(r, s') := write alloc s x0 y0 x1 y1 buf cs ls forgiving in
  wf s' /\ width s' = width s /\ height s' = height s /\
  (r = 1 \/ r = 0) /\ ((forall i, alloc i = true) -> r = 1) /\
  forall x y, 0 <= x < width s -> 0 <= y < height s ->
    (~ (x0 <= x < x1 /\ y0 <= y < y1) -> view s' x y = view s x y) /\
    (r = 1 -> x0 <= x < x1 /\ y0 <= y < y1 -> view s' x y = buf ((y - y0) * ls + (x - x0) * cs)) /\
    (view s' x y = view s x y \/ view s' x y = buf ((y - y0) * ls + (x - x0) * cs)).
Proof.
  intros alloc s x0 y0 x1 y1 buf cs ls f Hwf Hx Hy Hx1 Hy1 Hcs Hcs'. unfold write.
  replace (is_region_valid s x0 y0 x1 y1) with true by (symmetry; apply valid_region; lia).
  destruct (visits_good s x0 y0 x1 y1 Hwf ltac:(lia) ltac:(lia) Hx1 Hy1) as [G C].
  pose proof (write_visits_spec alloc x0 y0 x1 y1 cs ls buf _ s Hwf ltac:(lia) ltac:(lia) Hx1 Hy1 Hcs Hcs' G) as W.
  destruct (write_visits alloc x0 y0 cs ls buf (visits s x0 y0 x1 y1) s) as [r s']. destruct W as (S & R & V).
  split; [apply (same_shape_wf s); assumption |]. destruct S as (S1 & S2 & _). split; [exact S1 |]. split; [exact S2 |].
  split; [tauto |]. split.
  { intros A. destruct R as [R | (_ & i & R)]; [exact R |]. rewrite A in R. discriminate. }
  intros x y Bx By. destruct (V x y Bx By) as (V1 & V2 & V3). split; [exact V1 |]. split; [| exact V3].
  intros Hr Hin. apply V2; [exact Hr |]. left. apply C. exact Hin.
Qed.

(** A read delivers the array cells; [distinct] says that the strides given by
    the caller keep the cells of the region apart in the buffer. *)
Theorem c26_read : forall s x0 y0 x1 y1 buf cs ls forgiving, wf s -> 0 <= x0 < x1 -> 0 <= y0 < y1 ->
  x1 <= width s -> y1 <= height s -> 0 <= cs -> (x1 - x0) * cs <= 2 ^ 32 -> distinct x0 y0 x1 y1 cs ls ->
  let '(r, buf') := read s x0 y0 x1 y1 buf cs ls forgiving in
  r = 1 /\
  (forall x y, x0 <= x < x1 -> y0 <= y < y1 -> buf' ((y - y0) * ls + (x - x0) * cs) = view s x y) /\
  (forall a, (forall x y, x0 <= x < x1 -> y0 <= y < y1 -> a <> (y - y0) * ls + (x - x0) * cs) -> buf' a = buf a).
Proof.
  intros s x0 y0 x1 y1 buf cs ls f Hwf Hx Hy Hx1 Hy1 Hcs Hcs' Hd. unfold read.
  replace (is_region_valid s x0 y0 x1 y1) with true by (symmetry; apply valid_region; lia).
  destruct (visits_good s x0 y0 x1 y1 Hwf ltac:(lia) ltac:(lia) Hx1 Hy1) as [G C].
  destruct (read_visits_spec s x0 y0 x1 y1 cs ls Hwf ltac:(lia) ltac:(lia) Hx1 Hy1 Hcs Hcs' _ buf Hd G) as [A B].
  split; [reflexivity |]. split.
  - intros x y Bx By. apply A; [split; assumption |]. left. apply C. split; assumption.
  - intros a Ha. apply B. intros x y [Bx By]. apply Ha; assumption.
Qed.

Lemma do_write_spec : forall alloc s r, wf s -> req_ok r -> (forall i, alloc i = true) ->
  let s' := do_write alloc s r in
  wf s' /\ width s' = width s /\ height s' = height s /\
  forall x y, 0 <= x < width s -> 0 <= y < height s ->
    view s' x y = plain_write (width s) (height s) (view s) r x y.
Proof.
  intros alloc s r Wf (R1 & R2 & R3 & R4) Hal s'. subst s'. unfold do_write, plain_write, accepted.
  destruct (Z.ltb_spec (rx0 r) (rx1 r)) as [E1 | E1].
  destruct (Z.leb_spec (rx1 r) (width s)) as [E2 | E2].
  destruct (Z.ltb_spec (ry0 r) (ry1 r)) as [E3 | E3].
  destruct (Z.leb_spec (ry1 r) (height s)) as [E4 | E4].
  2-5: destruct (c26_refused alloc s (rx0 r) (ry0 r) (rx1 r) (ry1 r) (rbuf r) (rcs r) (rls r) (rforgiving r) ltac:(lia)) as [-> _];
       cbn [snd andb]; auto.
  pose proof (c26_write alloc s (rx0 r) (ry0 r) (rx1 r) (ry1 r) (rbuf r) (rcs r) (rls r) (rforgiving r) Wf
                ltac:(lia) ltac:(lia) E2 E4 R3 R4) as C.
  destruct (write alloc s (rx0 r) (ry0 r) (rx1 r) (ry1 r) (rbuf r) (rcs r) (rls r) (rforgiving r)) as [ret s'].
  destruct C as (C1 & C2 & C3 & _ & C5 & C6). cbn [snd andb]. split; [exact C1 |]. split; [exact C2 |]. split; [exact C3 |].
  intros x y Hx Hy. destruct (C6 x y Hx Hy) as (D1 & D2 & _).
  unfold covers. destruct (Z.leb_spec (rx0 r) x), (Z.ltb_spec x (rx1 r)), (Z.leb_spec (ry0 r) y), (Z.ltb_spec y (ry1 r)); cbn [andb];
    first [apply D2; [apply C5, Hal | lia] | apply D1; lia].
Qed.

(** Any history of writes to a new array, with enough memory: every cell holds
    what a plain zero-initialised array would hold. *)
Theorem c26_history : forall alloc w h bw bh s0 rs, is_u32 w -> is_u32 h -> is_u32 bw -> is_u32 bh ->
  create w h bw bh = Some s0 -> (forall i, alloc i = true) -> Forall req_ok rs ->
  let s := fold_left (do_write alloc) rs s0 in
  wf s /\ width s = w /\ height s = h /\
  forall x y, 0 <= x < w -> 0 <= y < h -> view s x y = fold_left (plain_write w h) rs (fun _ _ => 0) x y.
Proof.
  intros alloc w h bw bh s0 rs Hw Hh Hbw Hbh Hc Hal Hrs.
  destruct (create_wf w h bw bh s0 Hw Hh Hbw Hbh Hc) as (Wf & W & H & _ & _ & _ & V).
  assert (V' : forall x y, 0 <= x < w -> 0 <= y < h -> view s0 x y = (fun _ _ : Z => 0) x y) by (intros; apply V).
  clear Hc V. revert s0 Wf W H V'. generalize (fun _ _ : Z => 0).
  induction Hrs as [| r rs Hr Hrs IH]; intros A s Wf W H V; cbn [fold_left]; [auto |].
  destruct (do_write_spec alloc s r Wf Hr Hal) as (D1 & D2 & D3 & D4).
  apply IH; [exact D1 | congruence | congruence |].
  intros x y Hx Hy. rewrite D4 by lia. rewrite W, H. unfold plain_write.
  destruct (accepted w h r && covers r x y); [reflexivity |]. apply V; assumption.
Qed.

(** All block and cell indices used are within bounds. *)
Theorem c26_in_bounds : forall s x0 y0 x1 y1 sy sx j k, wf s -> 0 <= x0 -> 0 <= y0 -> x1 <= width s -> y1 <= height s ->
  In (sy, sx) (visits s x0 y0 x1 y1) -> 0 <= j < incr sy -> 0 <= k < incr sx ->
  0 <= block_index s sy sx < block_count_hor s * block_count_ver s /\
  0 <= in_block s sy sx j k < block_width s * block_height s.
Proof.
  intros s x0 y0 x1 y1 sy sx j k Hwf Hx0 Hy0 Hx1 Hy1 Hin Hj Hk.
  destruct (visits_good s x0 y0 x1 y1 Hwf Hx0 Hy0 Hx1 Hy1) as [G _]. rewrite Forall_forall in G. specialize (G _ Hin).
  destruct (block_of_visit s x0 y0 x1 y1 Hwf Hx0 Hy0 Hx1 Hy1 sy sx j k G Hj Hk) as [<- <-].
  destruct G as [(Y1 & Y2 & Y3 & _) (X1 & X2 & X3 & _)]. cbn [fst snd] in *.
  destruct Hwf as (W & H & BW & BH & CH & CV & CC).
  pose proof (ceil_bound (pos sx + k) (width s) (block_width s) ltac:(lia) ltac:(lia)) as BX.
  pose proof (ceil_bound (pos sy + j) (height s) (block_height s) ltac:(lia) ltac:(lia)) as BY.
  rewrite <- CH in BX. rewrite <- CV in BY.
  pose proof (Z.mod_pos_bound (pos sx + k) (block_width s) ltac:(lia)) as MX.
  pose proof (Z.mod_pos_bound (pos sy + j) (block_height s) ltac:(lia)) as MY.
  generalize dependent ((pos sx + k) / block_width s). generalize dependent ((pos sy + j) / block_height s).
  generalize dependent ((pos sx + k) mod block_width s). generalize dependent ((pos sy + j) mod block_height s).
  clear - BW BH. intros. split; nia.
Qed.

(** Creation: refused exactly for empty shapes and for sizes whose byte or block
    counts would exceed 32 bits. *)
Theorem c26_create : forall w h bw bh, is_u32 w -> is_u32 h -> is_u32 bw -> is_u32 bh ->
  (create w h bw bh = None <->
   w = 0 \/ h = 0 \/ bw = 0 \/ bh = 0 \/ 2 ^ 32 <= 4 * (bw * bh) \/
   2 ^ 32 <= ((w + bw - 1) / bw) * ((h + bh - 1) / bh)) /\
  (forall s, create w h bw bh = Some s -> wf s /\ width s = w /\ height s = h /\ forall x y, view s x y = 0).
Proof.
  intros w h bw bh Hw Hh Hbw Hbh. split.
  - unfold is_u32 in *. split.
    + unfold create.
      destruct (Z.eqb_spec w 0); [tauto |]. destruct (Z.eqb_spec h 0); [tauto |].
      destruct (Z.eqb_spec bw 0); [tauto |]. destruct (Z.eqb_spec bh 0); [tauto |]. cbn [orb].
      destruct (Z.ltb_spec ((2 ^ 32 - 1) / bh / 4) bw) as [L | L].
      { intros _. right. right. right. right. left. rewrite Z.div_div in L by lia.
        pose proof (Z.mul_succ_div_gt (2 ^ 32 - 1) (bh * 4) ltac:(lia)).
        assert ((bh * 4) * Z.succ ((2 ^ 32 - 1) / (bh * 4)) <= (bh * 4) * bw) by (apply Z.mul_le_mono_nonneg_l; lia). lia. }
      rewrite !uint_ceildiv_eq by lia.
      assert (Hcv : 1 <= (h + bh - 1) / bh) by (apply Z.div_le_lower_bound; lia).
      set (ch := (w + bw - 1) / bw). set (cv := (h + bh - 1) / bh) in *.
      destruct (Z.ltb_spec ((2 ^ 32 - 1) / cv) ch) as [L' | L']; [| discriminate]. intros _. right. right. right. right. right.
      pose proof (Z.mul_succ_div_gt (2 ^ 32 - 1) cv ltac:(lia)).
      assert (cv * Z.succ ((2 ^ 32 - 1) / cv) <= cv * ch) by (apply Z.mul_le_mono_nonneg_l; lia). lia.
    + intros H. destruct (create w h bw bh) as [s |] eqn:E; [| reflexivity]. exfalso.
      destruct (create_wf w h bw bh s Hw Hh Hbw Hbh E) as ((A1 & A2 & A3 & A4 & A5 & A6 & A7) & <- & <- & <- & <- & B & _).
      rewrite <- A5, <- A6 in H. lia.
  - intros s E. destruct (create_wf w h bw bh s Hw Hh Hbw Hbh E) as (Wf & <- & <- & <- & <- & B & V). auto.
Qed.

Definition grid (s : sparse) (w h : nat) : list Z :=
  flat_map (fun y => map (fun x => view s (Z.of_nat x) (Z.of_nat y)) (seq 0 w)) (seq 0 h).

Example c26_example :
  match create 7 5 3 2 with
  | Some s0 =>
      let s1 := do_write (fun _ => true) s0 (mkReq 1 1 6 4 (fun a => a + 1) 1 5 0) in
      let s2 := do_write (fun _ => true) s1 (mkReq 2 2 4 3 (fun a => -a) 2 7 0) in
      let s3 := do_write (fun _ => true) s2 (mkReq 2 2 8 3 (fun a => 99) 2 7 0) in
      (grid s3 7 5,
       map (snd (read s3 1 2 4 4 (fun _ => 77) 2 10 0)) [0; 1; 2; 3; 4; 5; 10; 12; 14])
  | None => ([], [])
  end =
  ([0; 0; 0; 0; 0; 0; 0;
    0; 1; 2; 3; 4; 5; 0;
    0; 6; 0; -2; 9; 10; 0;
    0; 11; 12; 13; 14; 15; 0;
    0; 0; 0; 0; 0; 0; 0],
   [6; 77; 0; 77; -2; 77; 11; 12; 13]).
Proof. vm_compute. reflexivity. Qed.

Print Assumptions c26_refused.
Print Assumptions c26_write.
Print Assumptions c26_read.
Print Assumptions c26_history.
Print Assumptions c26_in_bounds.
Print Assumptions c26_create.
