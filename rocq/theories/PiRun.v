(** Running the packet iterator: from the label machine to nested loops. *)

From Coq Require Import ZArith List Bool Lia.
From Verif Require Import Ints Mem PiModel.
Import ListNotations.
Local Open Scope Z_scope.

(** ** What marking does to a list of visits *)

Section Sift.
Context (g : cfg).
Definition index_of (v : packet) : Z := let '(l, r, c, p) := v in index g l r c p.

Fixpoint sift (m : mem) (vs : list packet) : list packet * mem :=
  match vs with
  | [] => ([], m)
  | v :: vs => if m (index_of v) =? 0
               then let '(e, m) := sift (upd m (index_of v) 1) vs in (v :: e, m)
               else sift m vs
  end.

Lemma sift_app : forall a b m,
  sift m (a ++ b) = (fst (sift m a) ++ fst (sift (snd (sift m a)) b), snd (sift (snd (sift m a)) b)).
Proof.
  induction a as [| v a IH]; intros b m; cbn [sift app fst snd].
  - destruct (sift m b); reflexivity.
  - destruct (m (index_of v) =? 0); [| apply IH]. rewrite IH.
    destruct (sift (upd m (index_of v) 1) a) as [e m1]. reflexivity.
Qed.
End Sift.

(** ** Paths *)

Section Machine.
Context {L : Type} (g : cfg) (step : L -> st -> move L) (again : L).

Inductive path : L * st -> list packet -> L * st -> Prop :=
| path_refl : forall a, path a [] a
| path_goto : forall l s l1 s1 out b, step l s = Goto l1 s1 -> path (l1, s1) out b -> path (l, s) out b
| path_found : forall l s s1 out b, step l s = Found s1 -> path (again, s1) out b -> path (l, s) (here s1 :: out) b.

Lemma path_app : forall a o1 b o2 c, path a o1 b -> path b o2 c -> path a (o1 ++ o2) c.
Proof.
  intros a o1 b o2 c H. induction H; intros Hc; [exact Hc | |].
  - eapply path_goto; [eassumption | auto].
  - cbn. eapply path_found; [eassumption | auto].
Qed.

(** From [a] to [b], visiting [vs] in order. *)
Definition does (a : L * st) (vs : list packet) (b : L * st) : Prop :=
  path a (fst (sift g (incl (snd a)) vs)) b /\ incl (snd b) = snd (sift g (incl (snd a)) vs).

Lemma does_refl : forall a, does a [] a.
Proof. intros a. split; [apply path_refl | reflexivity]. Qed.

Lemma does_app : forall a v1 b v2 c, does a v1 b -> does b v2 c -> does a (v1 ++ v2) c.
Proof.
  intros a v1 b v2 c [P1 I1] [P2 I2]. unfold does. rewrite sift_app. cbn [fst snd]. rewrite <- I1.
  split; [| exact I2]. eapply path_app; [exact P1 | exact P2].
Qed.

Lemma does_goto : forall l s l1 s1 vs b, step l s = Goto l1 s1 -> incl s1 = incl s -> does (l1, s1) vs b -> does (l, s) vs b.
Proof.
  intros l s l1 s1 vs b H E [P I]. unfold does in *. cbn [snd] in *. rewrite E in P, I.
  split; [| exact I]. eapply path_goto; eassumption.
Qed.

Lemma does_step : forall l s l1 s1, step l s = Goto l1 s1 -> incl s1 = incl s -> does (l, s) [] (l1, s1).
Proof. intros l s l1 s1 H E. eapply does_goto; [exact H | exact E | apply does_refl]. Qed.

Lemma does_probe : forall l l0 r0 c0 p0 x0 y0 m0,
  step l (mkSt l0 r0 c0 p0 x0 y0 m0) = probe g again (mkSt l0 r0 c0 p0 x0 y0 m0) ->
  index g l0 r0 c0 p0 < include_size g ->
  exists m1, does (l, mkSt l0 r0 c0 p0 x0 y0 m0) [(l0, r0, c0, p0)] (again, mkSt l0 r0 c0 p0 x0 y0 m1).
Proof.
  intros l l0 r0 c0 p0 x0 y0 m0 H Hi. unfold probe in H. cbn [lay rs cp pr x y incl] in H.
  replace (include_size g <=? index g l0 r0 c0 p0) with false in H by (symmetry; apply Z.leb_gt; exact Hi).
  unfold does. cbn [snd incl sift index_of].
  destruct (m0 (index g l0 r0 c0 p0) =? 0) eqn:E.
  - exists (upd m0 (index g l0 r0 c0 p0) 1). cbn [fst snd]. split; [| reflexivity].
    exact (path_found _ _ _ [] _ H (path_refl _)).
  - exists m0. cbn [fst snd]. split; [| reflexivity]. eapply path_goto; [exact H | apply path_refl].
Qed.

(** ** Loops *)

Fixpoint chain (nxt : Z -> Z) (v : Z) (l : list Z) (e : Z) : Prop :=
  match l with [] => v = e | w :: l => v = w /\ chain nxt (nxt w) l e end.

Lemma does_loop : forall (At : Z -> L * st -> Prop) nxt vs l v e a, chain nxt v l e ->
  (forall v a, In v l -> At v a -> exists b, does a (vs v) b /\ At (nxt v) b) ->
  At v a -> exists b, does a (flat_map vs l) b /\ At e b.
Proof.
  intros At nxt vs. induction l as [| w l IH]; intros v e a Hc Hb Ha; cbn [chain flat_map] in *.
  - subst. exists a. split; [apply does_refl | exact Ha].
  - destruct Hc as [-> Hc]. destruct (Hb w a) as (b & D & Hb'); [left; reflexivity | exact Ha |].
    destruct (IH (nxt w) e b Hc) as (c & D' & Hc'); [| exact Hb' |].
    + intros v' a' Hi. apply Hb. right; exact Hi.
    + exists c. split; [eapply does_app; eassumption | exact Hc'].
Qed.

(** ** Back to calls *)

Lemma go_more : forall f l s r, go step f l s = Some r -> forall f', (f <= f')%nat -> go step f' l s = Some r.
Proof.
  induction f; intros l s r H f' Hf; [discriminate |]. destruct f' as [| f']; [lia |]. cbn [go] in *.
  destruct (step l s); try exact H. apply IHf; [exact H | lia].
Qed.

(** One call and the rest of the calls, as a machine. *)
Fixpoint calls (n fuel : nat) (l : L) (s : st) : option (list packet * mem) :=
  match n with
  | O => None
  | S n => match go step fuel l s with
           | None => None
           | Some (false, s) => Some ([], incl s)
           | Some (true, s) => match calls n fuel again s with
                               | Some (o, m) => Some (here s :: o, m)
                               | None => None
                               end
           end
  end.

Lemma calls_path : forall a out b s', path a out b -> step (fst b) (snd b) = Stop s' ->
  exists n0 f0, forall n f, (n0 <= n)%nat -> (f0 <= f)%nat -> calls n f (fst a) (snd a) = Some (out, incl s').
Proof.
  intros a out b s' H. induction H as [a | l s l1 s1 out b Hs Hp IH | l s s1 out b Hs Hp IH]; intros Hb.
  - exists 1%nat, 1%nat. intros n f Hn Hf. destruct n; [lia |]. destruct f; [lia |]. cbn [calls go]. rewrite Hb. reflexivity.
  - destruct (IH Hb) as (n0 & f0 & H0). cbn [fst snd] in *. exists (S n0), (S f0). intros n f Hn Hf.
    destruct n; [lia |]. destruct f; [lia |]. specialize (H0 (S n) f ltac:(lia) ltac:(lia)).
    cbn [calls] in *. replace (go step (S f) l s) with (go step f l1 s1) by (cbn [go]; rewrite Hs; reflexivity).
    destruct (go step f l1 s1) as [[[|] s2] |] eqn:E; [| exact H0 | discriminate].
    destruct (calls n f again s2) as [[o m] |] eqn:E2; [| discriminate].
    (* the rest of the calls with one more unit of fuel *)
    assert (G : forall n l s o m f, calls n f l s = Some (o, m) -> calls n (S f) l s = Some (o, m)).
    { clear. induction n; intros l s o m f H; [discriminate |]. cbn [calls] in *.
      destruct (go step f l s) as [[b s1] |] eqn:E; [| discriminate].
      rewrite (go_more _ _ _ _ E (S f)) by lia. destruct b; [| exact H].
      destruct (calls n f again s1) as [[o1 m1] |] eqn:E1; [| discriminate].
      rewrite (IHn _ _ _ _ _ E1). exact H. }
    rewrite (G _ _ _ _ _ _ E2). exact H0.
  - destruct (IH Hb) as (n0 & f0 & H0). cbn [fst snd] in *. exists (S n0), (S f0). intros n f Hn Hf.
    destruct n; [lia |]. destruct f; [lia |].
    assert (H1 : calls n (S f) again s1 = Some (out, incl s')) by (apply H0; lia).
    cbn [calls]. replace (go step (S f) l s) with (Some (true, s1)) by (cbn [go]; rewrite Hs; reflexivity).
    rewrite H1. reflexivity.
Qed.

Lemma calls_does : forall a vs b s', does a vs b -> step (fst b) (snd b) = Stop s' -> incl s' = incl (snd b) ->
  exists n0 f0, forall n f, (n0 <= n)%nat -> (f0 <= f)%nat -> calls n f (fst a) (snd a) = Some (sift g (incl (snd a)) vs).
Proof.
  intros a vs b s' [P I] Hs E. destruct (calls_path _ _ _ _ P Hs) as (n0 & f0 & H). exists n0, f0. intros n f Hn Hf.
  rewrite (H n f Hn Hf), E, I. destruct (sift g (incl (snd a)) vs). reflexivity.
Qed.
End Machine.

(** ** Ranges *)

Definition range (a b : Z) : list Z := map (fun i => a + Z.of_nat i) (seq 0 (Z.to_nat (b - a))).

Lemma range_cons : forall a b, a < b -> range a b = a :: range (a + 1) b.
Proof.
  intros a b H. unfold range. replace (Z.to_nat (b - a)) with (S (Z.to_nat (b - (a + 1)))) by lia.
  cbn [seq map]. f_equal; [lia |]. rewrite <- seq_shift, map_map. apply map_ext. intros. lia.
Qed.

Lemma range_nil : forall a b, b <= a -> range a b = [].
Proof. intros a b H. unfold range. replace (Z.to_nat (b - a)) with O by lia. reflexivity. Qed.

Lemma in_range : forall a b v, In v (range a b) <-> a <= v < b.
Proof.
  intros a b v. unfold range. rewrite in_map_iff. split.
  - intros (i & <- & Hi). apply in_seq in Hi. lia.
  - intros H. exists (Z.to_nat (v - a)). split; [lia |]. apply in_seq. lia.
Qed.

Lemma inc_small : forall a, 0 <= a < 2 ^ 32 - 1 -> inc a = a + 1.
Proof. intros a H. unfold inc. apply u32_id. unfold is_u32. lia. Qed.

Lemma chain_range : forall a b, 0 <= a -> b < 2 ^ 32 -> chain inc a (range a b) (Z.max a b).
Proof.
  intros a b Ha Hb. remember (Z.to_nat (b - a)) as n eqn:E. revert a Ha E.
  induction n; intros a Ha E.
  - rewrite range_nil by lia. cbn. lia.
  - rewrite range_cons by lia. cbn [chain]. split; [reflexivity |]. rewrite inc_small by lia.
    replace (Z.max a b) with (Z.max (a + 1) b) by lia. apply IHn; lia.
Qed.

(** ** Positions *)

Fixpoint positions_from (n : nat) (d a b : Z) : list Z :=
  match n with
  | O => []
  | S n => if a <? b then a :: positions_from n d (a + (d - a mod d)) b else []
  end.
(** [a], then the multiples of [d] up to [b]. *)
Definition positions (d a b : Z) : list Z := positions_from (Z.to_nat (b - a)) d a b.

Lemma step_up : forall d a, 0 < d -> a < a + (d - a mod d).
Proof. intros d a H. pose proof (Z.mod_pos_bound a d H). lia. Qed.

Lemma positions_from_in : forall n d a b v, 0 < d -> (Z.to_nat (b - a) <= n)%nat ->
  In v (positions_from n d a b) <-> a <= v < b /\ (v = a \/ (d | v)).
Proof.
  induction n; intros d a b v Hd Hn; cbn [positions_from].
  - split; [intros [] | intros [H _]; lia].
  - destruct (Z.ltb_spec a b) as [H | H]; [| split; [intros [] | lia]].
    pose proof (step_up d a Hd) as U. cbn [In]. rewrite IHn by lia.
    pose proof (Z.mod_pos_bound a d Hd) as B.
    assert (Q : a + (d - a mod d) = d * (a / d + 1)) by (pose proof (Z.div_mod a d); lia).
    assert (Dq : (d | a + (d - a mod d))) by (exists (a / d + 1); lia).
    split.
    + intros [<- | [H1 [-> | H2]]]; [split; [lia | left; reflexivity] | split; [lia | right; exact Dq] | split; [lia | right; exact H2]].
    + intros [H1 H2]. destruct (Z.eq_dec a v) as [E | E]; [left; exact E | right].
      destruct H2 as [-> | H2]; [lia |]. split; [| right; exact H2]. split; [| lia].
      destruct H2 as [k ->]. rewrite Q. rewrite (Z.mul_comm d). apply Z.mul_le_mono_nonneg_r; [lia |].
      pose proof (Z.div_mod a d ltac:(lia)) as E2.
      assert (a / d < k); [| lia]. apply (Z.mul_lt_mono_pos_l d); lia.
Qed.

Lemma in_positions : forall d a b v, 0 < d -> In v (positions d a b) <-> a <= v < b /\ (v = a \/ (d | v)).
Proof. intros. apply positions_from_in; [assumption | lia]. Qed.

Lemma advance_small : forall d a, 0 < d < 2 ^ 32 -> 0 <= a < 2 ^ 31 -> advance d a = a + (d - a mod d).
Proof.
  intros d a Hd Ha. unfold advance. pose proof (Z.mod_pos_bound a d ltac:(lia)) as B.
  rewrite (u32_id (d - a mod d)) by (unfold is_u32; lia). apply u32_id. unfold is_u32.
  split; [lia |]. destruct (Z.lt_ge_cases a d) as [H | H].
  - rewrite Z.mod_small by lia. lia.
  - lia.
Qed.

Lemma chain_positions_from : forall n d a b, 0 < d < 2 ^ 32 -> 0 <= a < 2 ^ 32 -> b < 2 ^ 31 -> (Z.to_nat (b - a) <= n)%nat ->
  exists e, b <= e < 2 ^ 32 /\ chain (advance d) a (positions_from n d a b) e.
Proof.
  induction n; intros d a b Hd Ha Hb Hn; cbn [positions_from].
  - exists a. cbn. lia.
  - destruct (Z.ltb_spec a b) as [H | H]; [| exists a; cbn; lia].
    pose proof (step_up d a ltac:(lia)) as U. rewrite <- advance_small in U |- * by lia.
    assert (Bu : 0 <= advance d a < 2 ^ 32) by (apply u32_range).
    destruct (IHn d (advance d a) b Hd Bu Hb ltac:(lia)) as (e & He & C). exists e. split; [exact He |].
    cbn [chain]. split; [reflexivity | exact C].
Qed.

Lemma chain_positions : forall d a b, 0 < d < 2 ^ 32 -> 0 <= a < 2 ^ 32 -> b < 2 ^ 31 ->
  exists e, b <= e < 2 ^ 32 /\ chain (advance d) a (positions d a b) e.
Proof. intros. apply chain_positions_from; auto. Qed.
