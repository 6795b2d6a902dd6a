(** Quality layers: the proofs. *)

From Coq Require Import ZArith List Bool Lia.
From Verif Require Import Ints I32 T2PacketModel T2PacketProps RateModel.
Import ListNotations.
Local Open Scope Z_scope.

(** ** Lists *)
Lemma put_len : forall A i (x : A) l, (i < length l)%nat -> length (put i x l) = length l.
Proof. intros A i x l H. unfold put. rewrite app_length, firstn_length. cbn [length]. rewrite skipn_length. lia. Qed.
Lemma put_same : forall A i (x : A) l, (i < length l)%nat -> nth_error (put i x l) i = Some x.
Proof. intros A i x l H. unfold put. rewrite nth_error_app2; rewrite firstn_length; [| lia]. replace (i - Nat.min i (length l))%nat with 0%nat by lia. reflexivity. Qed.
Lemma first_nth : forall A (l : list A) k j, (j < k)%nat -> nth_error (firstn k l) j = nth_error l j.
Proof. induction l as [| x l IH]; intros [| k] [| j] H; try lia; try reflexivity. cbn [firstn nth_error]. apply IH. lia. Qed.
Lemma put_before : forall A i (x : A) l j, (j < i)%nat -> (i < length l)%nat -> nth_error (put i x l) j = nth_error l j.
Proof. intros A i x l j H L. unfold put. rewrite nth_error_app1 by (rewrite firstn_length; lia). apply first_nth. exact H. Qed.
Lemma put_first : forall A i (x : A) l, (i < length l)%nat -> firstn i (put i x l) = firstn i l.
Proof. intros A i x l H. unfold put. rewrite firstn_app, firstn_firstn, firstn_length. replace (i - Nat.min i (length l))%nat with 0%nat by lia. cbn [firstn]. rewrite app_nil_r, Nat.min_id. reflexivity. Qed.
Lemma put_first_S : forall A i (x : A) l, (i < length l)%nat -> firstn (S i) (put i x l) = firstn i l ++ [x].
Proof.
  intros A i x l H. unfold put. rewrite firstn_app, firstn_firstn, firstn_length. replace (S i - Nat.min i (length l))%nat with 1%nat by lia. cbn [firstn].
  replace (Nat.min (S i) i) with i by lia. reflexivity.
Qed.
Lemma put_app : forall A i (x : A) l, (i < length l)%nat -> skipn (S i) (put i x l) = skipn (S i) l.
Proof.
  intros A i x l H. unfold put. rewrite skipn_app, firstn_length. rewrite skipn_all2 by (rewrite firstn_length; lia). replace (S i - Nat.min i (length l))%nat with 1%nat by lia. reflexivity.
Qed.

Section Rate.
Context (P : floats).
Notation blk := (blk P).
Notation lay := (lay P).

Definition rates (b : blk) : list Z := map fst (b_passes b).
Definition cur (l : nat) (b : blk) : nat := match l with O => O | S _ => b_in b end.
Definition sound (b : blk) : Prop := (b_total b <= length (b_passes b))%nat /\ Forall (fun p => 0 <= fst p < 2 ^ 32) (b_passes b).

(** The number of passes taken. *)
Definition choose (l : nat) (thresh : F P) (b : blk) : option nat :=
  if f_lt P thresh (f_zero P) then Some (b_total b) else take P (b_passes b) thresh (b_total b - cur l b) (cur l b) (cur l b).

Lemma take_some : forall ps thresh k passno n, (passno + k <= length ps)%nat -> (n <= passno)%nat ->
  exists n', take P ps thresh k passno n = Some n' /\ (n <= n' <= passno + k)%nat.
Proof.
  intros ps thresh. induction k as [| k IH]; intros passno n H1 H2; cbn [take]; [exists n; split; [reflexivity | lia] |].
  destruct (nth_error ps passno) as [[rate dis] |] eqn:E; [| apply nth_error_None in E; lia].
  assert (X : forall n1, n1 = n \/ n1 = S passno -> exists n', take P ps thresh k (S passno) n1 = Some n' /\ (n <= n' <= passno + S k)%nat).
  { intros n1 C. destruct (IH (S passno) n1 ltac:(lia) ltac:(lia)) as (n' & T & L). exists n'. split; [exact T | lia]. }
  destruct n as [| m].
  - apply X. destruct (rate =? 0); [destruct (f_eq _ _ _) | destruct (f_lt _ _ _)]; auto.
  - destruct (nth_error ps m) as [[r0 d0] |] eqn:E0; [| apply nth_error_None in E0; lia].
    apply X. destruct (u32 (rate - r0) =? 0); [destruct (f_eq _ _ _) | destruct (f_lt _ _ _)]; auto.
Qed.
Lemma choose_some : forall l thresh b, sound b -> (cur l b <= b_total b)%nat -> exists n, choose l thresh b = Some n /\ (cur l b <= n <= b_total b)%nat.
Proof.
  intros l thresh b [S1 S2] H. unfold choose. destruct (f_lt _ _ _); [exists (b_total b); split; [reflexivity | lia] |].
  destruct (take_some (b_passes b) thresh (b_total b - cur l b) (cur l b) (cur l b) ltac:(lia) ltac:(lia)) as (n & T & L). exists n. split; [exact T | lia].
Qed.

Lemma rate_at : forall b i p, nth_error (b_passes b) i = Some p -> rate_upto (rates b) (S i) = fst p.
Proof. intros b i p E. cbn [rate_upto]. unfold rates. erewrite nth_error_nth; [reflexivity |]. rewrite nth_error_map, E. reflexivity. Qed.

(** A layer as it is made. *)
Definition made (b : blk) (a n : nat) (y : lay) : Prop :=
  y_passes y = (n - a)%nat /\ (n <> a -> y_off y = rate_upto (rates b) a /\ y_len y = u32 (rate_upto (rates b) n - rate_upto (rates b) a)).

Lemma fill_made : forall b a n y, sound b -> (a <= n <= b_total b)%nat -> exists y', fill P (b_passes b) a n y = Some y' /\ made b a n y'.
Proof.
  intros b a n y [S1 S2] H. unfold fill. destruct (n - a)%nat as [| d] eqn:D.
  - eexists. split; [reflexivity |]. split; [cbn; lia | lia].
  - destruct (nth_error (b_passes b) (n - 1)) as [[r dd] |] eqn:E; [| apply nth_error_None in E; lia].
    assert (Rn : rate_upto (rates b) n = r) by (replace n with (S (n - 1)) by lia; rewrite (rate_at b _ _ E); reflexivity).
    destruct a as [| a1].
    + eexists. split; [reflexivity |]. split; [cbn [y_passes]; lia |]. intros _. cbn [y_off y_len rate_upto]. split; [reflexivity |]. rewrite Rn, Z.sub_0_r.
      apply nth_error_In in E. rewrite Forall_forall in S2. specialize (S2 _ E). cbn [fst] in S2. rewrite u32_id by exact S2. reflexivity.
    + destruct (nth_error (b_passes b) a1) as [[r0 d0] |] eqn:E0; [| apply nth_error_None in E0; lia].
      eexists. split; [reflexivity |]. split; [cbn [y_passes]; lia |]. intros _. cbn [y_off y_len]. rewrite Rn, (rate_at b a1 _ E0). split; reflexivity.
Qed.

Lemma make_block_spec : forall l thresh final b, sound b -> (l < length (b_layers b))%nat -> (cur l b <= b_total b)%nat ->
  exists n y y0 d, choose l thresh b = Some n /\ (cur l b <= n <= b_total b)%nat /\ nth_error (b_layers b) l = Some y0 /\ made b (cur l b) n y /\
    make_block P l thresh final b = Some (Blk (b_total b) (b_passes b) (put l y (b_layers b)) (if final then n else cur l b), (y_passes y0 =? n - cur l b)%nat, d).
Proof.
  intros l thresh final b S Hl Hc. destruct (choose_some l thresh b S Hc) as (n & C & L). unfold make_block. fold (cur l b). unfold choose in C. rewrite C.
  destruct (nth_error (b_layers b) l) as [y0 |] eqn:E; [| apply nth_error_None in E; lia]. destruct (Nat.ltb_spec n (cur l b)); [lia |].
  destruct (fill_made b (cur l b) n y0 S L) as (y & Ef & M). rewrite Ef. exists n, y, y0. eexists. split; [exact C |]. split; [exact L |]. split; [reflexivity |]. split; [exact M |].
  repeat f_equal. destruct final; [| reflexivity]. destruct (Nat.eqb_spec (n - cur l b) 0); cbn [andb negb]; [lia | reflexivity].
Qed.

(** ** Blocks with layers *)
Definition layers_ok (b : blk) (cuts : list nat) (l : nat) : Prop :=
  forall i, (i < l)%nat -> exists y, nth_error (b_layers b) i = Some y /\ made b (cut cuts i) (cut cuts (S i)) y.
Definition done (room l : nat) (b : blk) : Prop :=
  sound b /\ length (b_layers b) = room /\
  exists cuts, length cuts = l /\ ascending 0 cuts (b_total b) /\ cur l b = cut cuts l /\ layers_ok b cuts l.

Lemma asc_snoc : forall cuts a top n, ascending a cuts top -> (nth (length cuts) (a :: cuts) 0 <= n <= top)%nat -> ascending a (cuts ++ [n]) top.
Proof.
  induction cuts as [| c cuts IH]; intros a top n H L; cbn [app ascending] in *; [cbn in L; split; [lia | exact I] |]. destruct H as [H1 H2]. split; [exact H1 |]. apply IH; [exact H2 |]. exact L.
Qed.
Lemma cut_app : forall cuts n i, (i <= length cuts)%nat -> cut (cuts ++ [n]) i = cut cuts i.
Proof. intros cuts n i H. unfold cut. change (0%nat :: cuts ++ [n]) with ((0%nat :: cuts) ++ [n]). apply app_nth1. cbn [length]. lia. Qed.
Lemma cut_last : forall cuts n, cut (cuts ++ [n]) (S (length cuts)) = n.
Proof. intros cuts n. unfold cut. cbn [nth]. rewrite app_nth2, Nat.sub_diag by lia. reflexivity. Qed.
Lemma cut_top : forall cuts top, ascending 0 cuts top -> (cut cuts (length cuts) <= top)%nat.
Proof.
  intros cuts top H. destruct cuts as [| c cuts]; [cbn; lia |]. pose proof (cut_steps (c :: cuts) 0 top (length cuts) H ltac:(cbn [length]; lia)). unfold cut. cbn [length nth] in *.
  destruct cuts; cbn [nth length] in *; lia.
Qed.

Lemma block_step : forall room l thresh b, (l < room)%nat -> done room l b ->
  (exists b' s d, make_block P l thresh false b = Some (b', s, d) /\ done room l b' /\ b_total b' = b_total b /\ b_passes b' = b_passes b) /\
  (exists b' s d n, make_block P l thresh true b = Some (b', s, d) /\ done room (S l) b' /\ choose l thresh b = Some n /\ b_in b' = n /\ b_total b' = b_total b /\ b_passes b' = b_passes b).
Proof.
  intros room l thresh b Hl (S & Lr & cuts & Lc & A & C & K).
  assert (Hc : (cur l b <= b_total b)%nat) by (rewrite C, <- Lc; apply cut_top; exact A).
  assert (Kp : forall y n, layers_ok (Blk (b_total b) (b_passes b) (put l y (b_layers b)) n) cuts l).
  { intros y n i Hi. destruct (K i Hi) as (yi & E & M). exists yi. split; [cbn [b_layers]; rewrite put_before by lia; exact E | exact M]. }
  split.
  - destruct (make_block_spec l thresh false b S ltac:(lia) Hc) as (n & y & y0 & d & _ & _ & _ & _ & E). rewrite E. eexists _, _, _. split; [reflexivity |]. split; [| split; reflexivity].
    split; [exact S |]. cbn [b_layers b_total]. split; [rewrite put_len by lia; exact Lr |]. exists cuts. split; [exact Lc |]. split; [exact A |]. split; [| apply Kp].
    destruct l; [exact C |]. exact C.
  - destruct (make_block_spec l thresh true b S ltac:(lia) Hc) as (n & y & y0 & d & En & L & _ & M & E). rewrite E. eexists _, _, _, n. split; [reflexivity |]. split; [| split; [exact En |]; split; [reflexivity |]; split; reflexivity].
    split; [exact S |]. cbn [b_layers b_total]. split; [rewrite put_len by lia; exact Lr |]. exists (cuts ++ [n]). split; [rewrite app_length; cbn; lia |].
    split; [apply asc_snoc; [exact A |]; rewrite Lc; unfold cut in C; lia |]. assert (CL : cut (cuts ++ [n]) (Datatypes.S l) = n) by (rewrite <- Lc; apply cut_last). split; [rewrite CL; reflexivity |].
    intros i Hi. destruct (Nat.eq_dec i l) as [-> | Q].
    + exists y. cbn [b_layers]. rewrite put_same by lia. split; [reflexivity |]. rewrite CL, cut_app, <- C by lia. exact M.
    + rewrite !cut_app by lia. apply Kp. lia.
Qed.

Definition kept (b b' : blk) : Prop := b_total b' = b_total b /\ b_passes b' = b_passes b.

Lemma makelayer_try : forall room l thresh bs same dis, (l < room)%nat -> Forall (done room l) bs ->
  exists bs' s d, make_blocks P l thresh false bs same dis = Some (bs', s, d) /\ Forall (done room l) bs' /\ Forall2 kept bs bs'.
Proof.
  intros room l thresh bs. induction bs as [| b bs IH]; intros same dis Hl H; [eexists _, _, _; split; [reflexivity | split; constructor] |].
  inversion H; subst. destruct (block_step room l thresh b Hl ltac:(assumption)) as [(b' & s & d & E & D & K) _]. cbn [make_blocks]. rewrite E.
  match goal with |- context [make_blocks P l thresh false bs ?x ?y] => destruct (IH x y Hl ltac:(assumption)) as (bs' & s' & d' & E' & D' & K') end. rewrite E'.
  eexists _, _, _. split; [reflexivity |]. split; constructor; assumption.
Qed.
Lemma makelayer_final : forall room l thresh bs same dis, (l < room)%nat -> Forall (done room l) bs ->
  exists bs' s d, make_blocks P l thresh true bs same dis = Some (bs', s, d) /\ Forall (done room (S l)) bs' /\ Forall2 kept bs bs' /\
    Forall2 (fun b b' => choose l thresh b = Some (b_in b')) bs bs'.
Proof.
  intros room l thresh bs. induction bs as [| b bs IH]; intros same dis Hl H; [eexists _, _, _; split; [reflexivity | split; [constructor | split; constructor]] |].
  inversion H; subst. destruct (block_step room l thresh b Hl ltac:(assumption)) as [_ (b' & s & d & n & E & D & N & Bi & K)]. cbn [make_blocks]. rewrite E.
  match goal with |- context [make_blocks P l thresh true bs ?x ?y] => destruct (IH x y Hl ltac:(assumption)) as (bs' & s' & d' & E' & D' & K' & N') end. rewrite E'.
  eexists _, _, _. split; [reflexivity |]. split; [constructor; assumption |]. split; constructor; try assumption. rewrite Bi. exact N.
Qed.
Lemma kept_trans : forall l m n, Forall2 kept l m -> Forall2 kept m n -> Forall2 kept l n.
Proof.
  intros l m n H. revert n. induction H as [| a b l m K H IH]; intros n G; inversion G; subst; constructor; [| apply IH; assumption].
  destruct K, H2. split; congruence.
Qed.
Lemma kept_refl : forall l, Forall2 kept l l.
Proof. induction l; constructor; [split; reflexivity | assumption]. Qed.

Lemma search_some : forall room st l g cum k i bs lo hi thresh stable ok, (l < room)%nat -> Forall (done room l) bs ->
  exists bs' t s, search P st l g cum k i bs lo hi thresh stable ok = Some (bs', t, s) /\ Forall (done room l) bs' /\ Forall2 kept bs bs'.
Proof.
  intros room st l g cum. induction k as [| k IH]; intros i bs lo hi thresh stable ok Hl H; cbn [search].
  - eexists _, _, _. split; [reflexivity |]. split; [exact H | apply kept_refl].
  - destruct (f_le _ _ _); [eexists _, _, _; split; [reflexivity |]; split; [exact H | apply kept_refl] |]. unfold makelayer.
    match goal with |- context [make_blocks P l ?t false bs ?x ?y] => destruct (makelayer_try room l t bs x y Hl H) as (bs1 & s1 & d1 & E & D & K) end. rewrite E. cbv zeta.
    match goal with |- context [if ?c then search P st l g cum k ?i bs1 ?a1 ?a2 ?a3 ?a4 ?a5 else search P st l g cum k ?i bs1 ?b1 ?b2 ?b3 ?b4 ?b5] =>
      destruct (IH i bs1 a1 a2 a3 a4 a5 Hl D) as (bs2 & t2 & s2 & E2 & D2 & K2); destruct (IH i bs1 b1 b2 b3 b4 b5 Hl D) as (bs3 & t3 & s3 & E3 & D3 & K3); destruct c end.
    + exists bs2, t2, s2. split; [exact E2 |]. split; [exact D2 | eapply kept_trans; eassumption].
    + exists bs3, t3, s3. split; [exact E3 |]. split; [exact D3 | eapply kept_trans; eassumption].
Qed.
Lemma one_layer_some : forall room st lo hi l g bs cum, (l < room)%nat -> Forall (done room l) bs ->
  exists bs' d, one_layer P st lo hi l g bs cum = Some (bs', d) /\ Forall (done room (S l)) bs' /\ Forall2 kept bs bs' /\
    (g_search g = false -> f_lt P (f_minus_one P) (f_zero P) = true -> Forall (fun b => b_in b = b_total b) bs').
Proof.
  intros room st lo hi l g bs cum Hl H. unfold one_layer. destruct (g_search g).
  - destruct (search_some room st l g cum 128 0 bs lo hi (f_zero P) (f_zero P) false Hl H) as (bs1 & t & s & E & D & K). rewrite E. unfold makelayer.
    match goal with |- context [make_blocks P l ?t true bs1 ?x ?y] => destruct (makelayer_final room l t bs1 x y Hl D) as (bs2 & s2 & d2 & E2 & D2 & K2 & _) end. rewrite E2.
    eexists _, _. split; [reflexivity |]. split; [exact D2 |]. split; [eapply kept_trans; eassumption | discriminate].
  - unfold makelayer. match goal with |- context [make_blocks P l ?t true bs ?x ?y] => destruct (makelayer_final room l t bs x y Hl H) as (bs2 & s2 & d2 & E2 & D2 & K2 & N2) end. rewrite E2.
    eexists _, _. split; [reflexivity |]. split; [exact D2 |]. split; [exact K2 |]. intros _ Neg. clear - N2 K2 Neg.
    induction N2 as [| b b' bs bs' N N2 IH]; [constructor |]. inversion K2; subst. constructor; [| apply IH; assumption].
    unfold choose in N. rewrite Neg in N. destruct H2 as [K _]. congruence.
Qed.
Lemma layers_some : forall room st lo hi gs l bs cum, (l + length gs <= room)%nat -> Forall (done room l) bs ->
  exists bs', layers_from P st lo hi l gs bs cum = Some bs' /\ Forall (done room (l + length gs)) bs' /\ Forall2 kept bs bs' /\
    (forall gs0 g, gs = gs0 ++ [g] -> g_search g = false -> f_lt P (f_minus_one P) (f_zero P) = true -> Forall (fun b => b_in b = b_total b) bs').
Proof.
  intros room st lo hi. induction gs as [| g gs IH]; intros l bs cum Hl H; cbn [layers_from length] in *.
  - exists bs. split; [reflexivity |]. rewrite Nat.add_0_r. split; [exact H |]. split; [apply kept_refl |]. intros gs0 g E. destruct gs0; discriminate E.
  - destruct (one_layer_some room st lo hi l g bs cum ltac:(lia) H) as (bs1 & d1 & E1 & D1 & K1 & N1). rewrite E1.
    destruct (IH (S l) bs1 d1 ltac:(lia) D1) as (bs2 & E2 & D2 & K2 & N2). exists bs2. split; [exact E2 |].
    split; [replace (l + S (length gs))%nat with (S l + length gs)%nat by lia; exact D2 |]. split; [eapply kept_trans; eassumption |].
    intros [| g0 gs0] gl E Gs Neg.
    + injection E as -> ->. cbn [layers_from] in E2. injection E2 as <-. apply N1; assumption.
    + injection E as _ ->. apply (N2 gs0 gl eq_refl Gs Neg).
Qed.

Lemma slopes_some : forall ps k passno mm, (passno + k <= length ps)%nat -> exists m, slopes P ps k passno mm = Some m.
Proof.
  intros ps. induction k as [| k IH]; intros passno [lo hi] H; cbn [slopes]; [eexists; reflexivity |].
  destruct (nth_error ps passno) as [[r d] |] eqn:E; [| apply nth_error_None in E; lia]. destruct passno as [| m]; [apply IH; lia |].
  destruct (nth_error ps m) as [[r0 d0] |] eqn:E0; [apply IH; lia | apply nth_error_None in E0; lia].
Qed.
Lemma all_slopes_some : forall bs mm, Forall sound bs -> exists m, all_slopes P bs mm = Some m.
Proof.
  induction bs as [| b bs IH]; intros mm H; cbn [all_slopes]; [eexists; reflexivity |]. inversion H; subst. destruct H2 as [S1 _].
  destruct (slopes_some (b_passes b) (b_total b) 0 mm ltac:(lia)) as (m & ->). apply IH. assumption.
Qed.

Theorem allocated : forall room st gs bs, (length gs <= room)%nat -> Forall sound bs -> Forall (fun b => length (b_layers b) = room) bs ->
  exists bs', rateallocate P st gs bs = Some bs' /\ Forall (done room (length gs)) bs' /\ Forall2 kept bs bs' /\
    (forall gs0 g, gs = gs0 ++ [g] -> g_search g = false -> f_lt P (f_minus_one P) (f_zero P) = true -> Forall (fun b => b_in b = b_total b) bs').
Proof.
  intros room st gs bs Hl S R. unfold rateallocate. destruct (all_slopes_some bs (f_max P, f_zero P) S) as ([lo hi] & ->).
  apply (layers_some room st lo hi gs 0 bs (f_zero P) ltac:(lia)). rewrite Forall_forall in *. intros b I. split; [apply S; exact I |]. split; [apply R; exact I |].
  exists []. split; [reflexivity |]. split; [exact Logic.I |]. split; [reflexivity |]. intros i Hi. lia.
Qed.

(** ** What was accepted is what is made *)
Definition alike (l : nat) (b b' : blk) : Prop :=
  kept b b' /\ cur l b' = cur l b /\ firstn l (b_layers b') = firstn l (b_layers b) /\ length (b_layers b') = length (b_layers b).
Definition ready (l : nat) (b : blk) : Prop := sound b /\ (l < length (b_layers b))%nat /\ (cur l b <= b_total b)%nat.
(** What is seen of a layer with the passes [a] to [n]. *)
Definition entry (b : blk) (a n : nat) : nat * Z * Z :=
  if (n - a =? 0)%nat then (0%nat, 0, 0) else ((n - a)%nat, rate_upto (rates b) a, u32 (rate_upto (rates b) n - rate_upto (rates b) a)).
Definition past (l : nat) (b : blk) : list (nat * Z * Z) :=
  map (fun y => if (y_passes y =? 0)%nat then (0%nat, 0, 0) else (y_passes y, y_off y, y_len y)) (firstn l (b_layers b)).

Lemma block_view : forall l thresh final b, ready l b ->
  exists b' n y0 d, choose l thresh b = Some n /\ nth_error (b_layers b) l = Some y0 /\ make_block P l thresh final b = Some (b', (y_passes y0 =? n - cur l b)%nat, d) /\
    view P l b' = past l b ++ [entry b (cur l b) n] /\ (final = false -> alike l b b' /\ ready l b') /\ nth_error (b_layers b') l <> None /\
    (forall y, nth_error (b_layers b') l = Some y -> y_passes y = (n - cur l b)%nat).
Proof.
  intros l thresh final b (S & Hl & Hc). destruct (make_block_spec l thresh final b S Hl Hc) as (n & y & y0 & d & C & L & N0 & M & E).
  eexists _, n, y0, d. split; [exact C |]. split; [exact N0 |]. split; [exact E |]. cbn [b_layers view]. split; [| split; [| split]].
  - unfold view. cbn [b_layers]. rewrite put_first_S by exact Hl. rewrite map_app. unfold past. f_equal. cbn [map]. f_equal. destruct M as [M1 M2]. unfold entry. rewrite M1.
    destruct (Nat.eqb_spec (n - cur l b) 0) as [Q | Q]; [reflexivity |]. destruct (M2 ltac:(lia)) as [-> ->]. reflexivity.
  - intros ->. cbn [b_layers]. split; [split; [split; reflexivity |]; split; [destruct l; reflexivity |]; cbn [b_layers]; split; [apply put_first; exact Hl | apply put_len; exact Hl] |].
    split; [exact S |]. cbn [b_layers b_total]. rewrite put_len by exact Hl. split; [exact Hl |]. destruct l; exact Hc.
  - rewrite put_same by exact Hl. discriminate.
  - intros y1. rewrite put_same by exact Hl. intros Q. injection Q as <-. apply M.
Qed.
Lemma alike_choose : forall l thresh b b', alike l b b' -> choose l thresh b' = choose l thresh b.
Proof. intros l thresh b b' ((K1 & K2) & C & _). unfold choose. rewrite K1, K2, C. reflexivity. Qed.
Lemma alike_view : forall l b b' n, alike l b b' -> past l b' ++ [entry b' (cur l b') n] = past l b ++ [entry b (cur l b) n].
Proof. intros l b b' n ((K1 & K2) & C & Fi & _). unfold past, entry, rates. rewrite K2, C, Fi. reflexivity. Qed.
Lemma alike_trans : forall l a b c, alike l a b -> alike l b c -> alike l a c.
Proof. intros l a b c ((A1 & A2) & A3 & A4 & A5) ((B1 & B2) & B3 & B4 & B5). split; [split; congruence |]. split; [congruence |]. split; congruence. Qed.

(** The views with threshold [t]. *)
Definition views (l : nat) (t : F P) (bs : list blk) : list (list (nat * Z * Z)) :=
  map (fun b => past l b ++ [entry b (cur l b) (match choose l t b with Some n => n | None => O end)]) bs.
Lemma views_alike : forall l t bs bs', Forall2 (alike l) bs bs' -> views l t bs' = views l t bs.
Proof. intros l t bs bs' H. induction H as [| b b' bs bs' A H IH]; [reflexivity |]. unfold views in *. cbn [map]. rewrite IH, (alike_choose _ t _ _ A). f_equal. apply alike_view. exact A. Qed.
Lemma alikes_trans : forall l a b c, Forall2 (alike l) a b -> Forall2 (alike l) b c -> Forall2 (alike l) a c.
Proof. intros l a b c H. revert c. induction H; intros k G; inversion G; subst; constructor; [eapply alike_trans; eassumption | auto]. Qed.
Lemma alikes_refl : forall l bs, Forall2 (alike l) bs bs.
Proof. intros l bs. induction bs; constructor; [repeat split; reflexivity | assumption]. Qed.

Lemma blocks_view : forall l t final bs same dis, Forall (ready l) bs ->
  exists bs' s d, make_blocks P l t final bs same dis = Some (bs', s, d) /\ map (view P l) bs' = views l t bs /\
    (final = false -> Forall2 (alike l) bs bs' /\ Forall (ready l) bs') /\
    (s = true -> forall t0, map (view P l) bs = views l t0 bs -> (forall b y, In b bs -> nth_error (b_layers b) l = Some y -> exists n, choose l t0 b = Some n /\ y_passes y = (n - cur l b)%nat) -> views l t bs = views l t0 bs) /\
    (final = false -> forall b y, In b bs' -> nth_error (b_layers b) l = Some y -> exists n, choose l t b = Some n /\ y_passes y = (n - cur l b)%nat).
Proof.
  intros l t final bs. induction bs as [| b bs IH]; intros same dis H.
  - eexists _, _, _. split; [reflexivity |]. split; [reflexivity |]. split; [intros _; split; constructor |]. split; [reflexivity | intros _ b y []].
  - inversion H as [| ? ? Rb Rbs]; subst. destruct (block_view l t final b Rb) as (b' & n & y0 & d & C & N0 & E & V & K & _ & Y). cbn [make_blocks]. rewrite E.
    match goal with |- context [make_blocks P l t final bs ?x ?y] => destruct (IH x y Rbs) as (bs' & s' & d' & E' & V' & K' & T' & Q') end. rewrite E'.
    eexists _, _, _. split; [reflexivity |]. split; [unfold views; cbn [map]; rewrite C, V; f_equal; exact V' |].
    split; [intros Fi; destruct (K Fi), (K' Fi); split; constructor; assumption |]. split.
    + intros Hs t0 V0 Y0. cbn [map views] in V0. unfold views in V0. cbn [map] in V0. injection V0 as V1 V2. unfold views. cbn [map]. f_equal.
      * rewrite C. f_equal. f_equal. destruct (Y0 b y0 (or_introl eq_refl) N0) as (n0 & C0 & P0). rewrite C0.
        assert (Sm : (y_passes y0 =? n - cur l b)%nat = true).
        { destruct (y_passes y0 =? n - cur l b)%nat; [reflexivity |]. exfalso. rewrite andb_false_r in E'. clear - E' Hs.
          assert (G : forall cs0 d0, match make_blocks P l t final cs0 false d0 with Some (_, s, _) => s = false | None => True end).
          { intros cs0. induction cs0 as [| c cs IHc]; intros d0; cbn [make_blocks]; [reflexivity |]. destruct (make_block P l t final c) as [[[c' sc] dc] |]; [| exact Logic.I]. cbn [andb].
            match goal with |- context [make_blocks P l t final cs false ?z] => specialize (IHc z); destruct (make_blocks P l t final cs false z) as [[[? ?] ?] |]; [exact IHc | exact Logic.I] end. }
          match type of E' with make_blocks P l t final bs false ?z = _ => specialize (G bs z) end. rewrite E' in G. congruence. }
        apply Nat.eqb_eq in Sm. rewrite Sm in P0. unfold entry. rewrite <- P0.
        destruct (Nat.eqb_spec (n - cur l b) 0) as [Q | Q]; [reflexivity |]. replace n0 with n by lia. reflexivity.
      * apply (T' Hs t0); [exact V2 |]. intros c y I. apply Y0. right. exact I.
    + intros Fi c y [<- | I] N; [| exact (Q' Fi c y I N)]. exists n. destruct (K Fi) as [A _]. rewrite (alike_choose l t b b' A). split; [exact C |].
      destruct A as (_ & Cu & _). rewrite Cu. apply Y. exact N.
Qed.

(** The search: when the trial runs decide, the threshold kept is one that fits. *)
Lemma fits_kept : forall l g cum k i bs lo hi thresh stable ok bs' t s,
  Forall (ready l) bs -> search P ByRate l g cum k i bs lo hi thresh stable ok = Some (bs', t, s) ->
  (i <> 0%nat -> map (view P l) bs = views l thresh bs /\ ok = g_fits g (views l thresh bs) /\
     forall b y, In b bs -> nth_error (b_layers b) l = Some y -> exists n, choose l thresh b = Some n /\ y_passes y = (n - cur l b)%nat) ->
  g_fits g (views l stable bs) = true ->
  Forall2 (alike l) bs bs' /\ g_fits g (views l s bs') = true.
Proof.
  intros l g cum. induction k as [| k IH]; intros i bs lo hi thresh stable ok bs' t s R E Inv St; cbn [search] in E.
  - injection E as <- <- <-. split; [apply alikes_refl | exact St].
  - destruct (f_le _ _ _); [injection E as <- <- <-; split; [apply alikes_refl | exact St] |]. unfold makelayer in E.
    set (new := f_div P (f_add P lo hi) (f_two P)) in *. destruct (blocks_view l new false bs true (f_zero P) R) as (bs1 & s1 & d1 & E1 & V1 & K1 & T1 & Q1). rewrite E1 in E. cbv zeta in E.
    destruct (K1 eq_refl) as [A1 R1]. specialize (Q1 eq_refl). rewrite V1 in E.
    assert (Va : views l new bs1 = views l new bs) by (apply views_alike; exact A1).
    set (acc := if s1 && negb (i =? 0)%nat then ok else g_fits g (views l new bs)) in *.
    assert (Acc : acc = g_fits g (views l new bs)).
    { unfold acc. destruct s1; [| reflexivity]. destruct (Nat.eqb_spec i 0) as [Q | Q]; [reflexivity |]. cbn [andb negb]. destruct (Inv Q) as (I1 & I2 & I3).
      rewrite I2. f_equal. symmetry. apply (T1 eq_refl thresh); assumption. }
    destruct acc.
    + destruct (IH _ _ _ _ _ _ _ _ _ _ R1 E) as (X2 & X3).
      * intros _. split; [rewrite V1, Va; reflexivity |]. split; [rewrite Va; exact Acc |]. intros b y I N. destruct (Q1 b y I N) as (n & C & Y). exists n. split; assumption.
      * rewrite Va. symmetry. exact Acc.
      * split; [eapply alikes_trans; eassumption | exact X3].
    + destruct (IH _ _ _ _ _ _ _ _ _ _ R1 E) as (X2 & X3).
      * intros _. split; [rewrite V1, Va; reflexivity |]. split; [rewrite Va; exact Acc |]. intros b y I N. destruct (Q1 b y I N) as (n & C & Y). exists n. split; assumption.
      * rewrite (views_alike l stable bs bs1 A1); exact St.
      * split; [eapply alikes_trans; eassumption | exact X3].
Qed.

(** The same goal, but that nothing fits. *)
Definition never (g : goal P) : goal P := Goal (g_search g) (g_target g) (fun _ => false).
Lemma search_or_never : forall l g cum k i bs lo hi thresh stable bs' t s,
  Forall (ready l) bs -> search P ByRate l g cum k i bs lo hi thresh stable false = Some (bs', t, s) ->
  (i <> 0%nat -> map (view P l) bs = views l thresh bs /\ false = g_fits g (views l thresh bs) /\
     forall b y, In b bs -> nth_error (b_layers b) l = Some y -> exists n, choose l thresh b = Some n /\ y_passes y = (n - cur l b)%nat) ->
  search P ByRate l (never g) cum k i bs lo hi thresh stable false = Some (bs', t, s) \/
  (Forall2 (alike l) bs bs' /\ g_fits g (views l s bs') = true).
Proof.
  intros l g cum. induction k as [| k IH]; intros i bs lo hi thresh stable bs' t s R E Inv; cbn [search] in *; [left; exact E |].
  destruct (f_le _ _ _); [left; exact E |]. unfold makelayer in *.
  set (new := f_div P (f_add P lo hi) (f_two P)) in *. destruct (blocks_view l new false bs true (f_zero P) R) as (bs1 & s1 & d1 & E1 & V1 & K1 & T1 & Q1). rewrite E1 in *. cbv zeta in *.
  destruct (K1 eq_refl) as [A1 R1]. specialize (Q1 eq_refl). rewrite V1 in *.
  assert (Va : views l new bs1 = views l new bs) by (apply views_alike; exact A1). cbn [never g_fits].
  replace (if s1 && negb (i =? 0)%nat then false else false) with false by (destruct (s1 && _); reflexivity).
  set (acc := if s1 && negb (i =? 0)%nat then false else g_fits g (views l new bs)) in *.
  assert (Acc : acc = g_fits g (views l new bs)).
  { unfold acc. destruct s1; [| reflexivity]. destruct (Nat.eqb_spec i 0) as [Q | Q]; [reflexivity |]. cbn [andb negb]. destruct (Inv Q) as (I1 & I2 & I3).
    rewrite I2. f_equal. symmetry. apply (T1 eq_refl thresh); assumption. }
  assert (Nx : S i <> 0%nat -> map (view P l) bs1 = views l new bs1 /\ acc = g_fits g (views l new bs1) /\
     forall b y, In b bs1 -> nth_error (b_layers b) l = Some y -> exists n, choose l new b = Some n /\ y_passes y = (n - cur l b)%nat).
  { intros _. split; [rewrite V1, Va; reflexivity |]. split; [rewrite Va; exact Acc |]. intros b y I N. destruct (Q1 b y I N) as (n & C & Y). exists n. split; assumption. }
  destruct acc.
  - right. assert (G := fits_kept l g cum k (S i) bs1 lo new new new true bs' t s R1 E Nx ltac:(rewrite Va; symmetry; exact Acc)). destruct G as [G1 G2].
    split; [eapply alikes_trans; eassumption | exact G2].
  - destruct (IH _ _ _ _ _ _ _ _ _ R1 E Nx) as [X | (X1 & X2)]; [left; exact X | right]. split; [eapply alikes_trans; eassumption | assumption].
Qed.
(** ** Fixed allocation *)
Definition fixed_cut (m : nat -> Z) (imsb : Z) (l : nat) : nat := if m l <=? imsb then O else Z.to_nat (3 * (m l - imsb) - 2).
Lemma cut_map : forall f l i, (i < l)%nat -> cut (map f (seq 0 l)) (S i) = f i.
Proof. intros f l i H. unfold cut. cbn [nth]. apply nth_error_nth. rewrite nth_error_map, nth_error_nth' with (d := O) by (rewrite seq_length; exact H). rewrite seq_nth by exact H. reflexivity. Qed.
Lemma asc_map : forall f top l, (forall i, (i < l)%nat -> (f i <= top)%nat) -> (forall i, (S i < l)%nat -> (f i <= f (S i))%nat) -> ascending 0 (map f (seq 0 l)) top.
Proof.
  intros f top l H1 H2. induction l as [| l IH]; [exact I |]. rewrite seq_S, map_app. cbn [map plus]. apply asc_snoc.
  - apply IH; intros i Hi; [apply H1 | apply H2]; lia.
  - rewrite map_length, seq_length. split; [| apply H1; lia]. destruct l as [| l]; [cbn; lia |]. change (nth (S l) (0%nat :: map f (seq 0 (S l))) 0%nat) with (cut (map f (seq 0 (S l))) (S l)).
    rewrite cut_map by lia. apply H2. lia.
Qed.
Section Fixed.
Context (m : nat -> Z) (imsb prec : Z).
Hypothesis (Hi : 0 <= imsb <= prec) (Hp : prec <= 100) (Hm : forall l, 0 <= m l <= prec) (Hup : forall l, m l <= m (S l)).
Definition fixed_ok (room l : nat) (b : blk) : Prop :=
  sound b /\ length (b_layers b) = room /\ Z.of_nat (b_total b) = (if prec =? imsb then 0 else 3 * (prec - imsb) - 2) /\
  cur l b = cut (map (fixed_cut m imsb) (seq 0 l)) l /\ layers_ok b (map (fixed_cut m imsb) (seq 0 l)) l.
Lemma fixed_top : forall (b : blk) l, Z.of_nat (b_total b) = (if prec =? imsb then 0 else 3 * (prec - imsb) - 2) -> (fixed_cut m imsb l <= b_total b)%nat.
Proof.
  intros b l T. unfold fixed_cut. pose proof (Hm l). destruct (Z.leb_spec (m l) imsb); [lia |]. destruct (Z.eqb_spec prec imsb); lia.
Qed.
Lemma fixed_up : forall l, (fixed_cut m imsb l <= fixed_cut m imsb (S l))%nat.
Proof. intros l. unfold fixed_cut. pose proof (Hup l). destruct (Z.leb_spec (m l) imsb); [lia |]. destruct (Z.leb_spec (m (S l)) imsb); lia. Qed.
Lemma fixed_count : forall l a, a = cut (map (fixed_cut m imsb) (seq 0 l)) l ->
  (match a with O => if fixed_value m l imsb =? 0 then O else Z.to_nat (u32 (3 * u32 (fixed_value m l imsb) - 2)) | S _ => Z.to_nat (u32 (u32 (3 * u32 (fixed_value m l imsb)) + Z.of_nat a)) end) = fixed_cut m imsb l.
Proof.
  intros l a ->. destruct l as [| l].
  - cbn [seq map cut nth]. unfold fixed_value, fixed_cut. pose proof (Hm 0%nat). destruct (Z.leb_spec (m 0%nat) imsb); [reflexivity |].
    rewrite i32_id by (unfold in_i32; lia). destruct (Z.eqb_spec (m 0%nat - imsb) 0); [lia |]. rewrite !u32_id; rewrite ?u32_id; lia.
  - rewrite cut_map by lia. pose proof (Hm l) as M1. pose proof (Hm (S l)) as M2. pose proof (Hup l) as M3. unfold fixed_value.
    rewrite (i32_id (m (S l) - m l)) by (unfold in_i32; lia). destruct (Z.leb_spec (m l) imsb) as [Q | Q].
    + assert (X : fixed_cut m imsb l = O) by (unfold fixed_cut; destruct (Z.leb_spec (m l) imsb); [reflexivity | lia]). rewrite X.
      rewrite (i32_id (imsb - m l)), (i32_id (m (S l) - m l - (imsb - m l))) by (unfold in_i32; lia). replace (m (S l) - m l - (imsb - m l)) with (m (S l) - imsb) by lia. unfold fixed_cut.
      destruct (Z.leb_spec (m (S l)) imsb) as [Q2 | Q2]; [rewrite Z.max_l by lia; reflexivity |]. rewrite Z.max_r by lia. destruct (Z.eqb_spec (m (S l) - imsb) 0); [lia |]. rewrite !u32_id; rewrite ?u32_id; lia.
    + assert (X : fixed_cut m imsb l = Z.to_nat (3 * (m l - imsb) - 2)) by (unfold fixed_cut; destruct (Z.leb_spec (m l) imsb); [lia | reflexivity]). rewrite X.
      destruct (Z.to_nat (3 * (m l - imsb) - 2)) as [| a] eqn:Ea; [lia |]. rewrite <- Ea. unfold fixed_cut. destruct (Z.leb_spec (m (S l)) imsb); [lia |].
      rewrite Z2Nat.id, (u32_id (m (S l) - m l)), (u32_id (3 * (m (S l) - m l))), u32_id by lia. f_equal. lia.
Qed.
Lemma fixed_step : forall room l b, (l < room)%nat -> fixed_ok room l b -> exists b', make_fixed P m imsb l b = Some b' /\ fixed_ok room (S l) b' /\ kept b b'.
Proof.
  intros room l b Hl (S & Lr & T & C & K). set (cuts := map (fixed_cut m imsb) (seq 0 l)) in *. assert (Lc : length cuts = l) by (unfold cuts; rewrite map_length, seq_length; reflexivity).
  unfold make_fixed. fold (cur l b). rewrite (fixed_count l (cur l b) C). set (n := fixed_cut m imsb l).
  assert (Ln : (cur l b <= n <= b_total b)%nat).
  { split; [| apply fixed_top; exact T]. rewrite C. unfold cuts. destruct l as [| l]; [cbn; lia |]. rewrite cut_map by lia. apply fixed_up. }
  destruct (nth_error (b_layers b) l) as [y0 |] eqn:E; [| apply nth_error_None in E; lia].
  assert (X : exists y, (if (n =? cur l b)%nat then Some (Blk (b_total b) (b_passes b) (put l (Lay 0 (y_len y0) (y_off y0) (y_dis y0)) (b_layers b)) (cur l b))
      else if (n <? cur l b)%nat then None else match fill P (b_passes b) (cur l b) n y0 with None => None | Some y' => Some (Blk (b_total b) (b_passes b) (put l y' (b_layers b)) n) end) =
      Some (Blk (b_total b) (b_passes b) (put l y (b_layers b)) n) /\ made b (cur l b) n y).
  { destruct (Nat.eqb_spec n (cur l b)) as [Q | Q].
    - eexists. rewrite <- Q. split; [reflexivity |]. split; [cbn; lia | contradiction].
    - destruct (Nat.ltb_spec n (cur l b)); [lia |]. destruct (fill_made b (cur l b) n y0 S Ln) as (y & Ef & M). rewrite Ef. exists y. split; [reflexivity | exact M]. }
  destruct X as (y & -> & M). eexists. split; [reflexivity |]. split; [| split; reflexivity].
  split; [exact S |]. cbn [b_layers b_total]. split; [rewrite put_len by lia; exact Lr |]. split; [exact T |].
  assert (Es : map (fixed_cut m imsb) (seq 0 (Datatypes.S l)) = cuts ++ [n]) by (rewrite seq_S, map_app; reflexivity). rewrite Es.
  assert (CL : cut (cuts ++ [n]) (Datatypes.S l) = n) by (rewrite <- Lc; apply cut_last). split; [rewrite CL; reflexivity |].
  intros i Hi'. destruct (Nat.eq_dec i l) as [-> | Q].
  - exists y. cbn [b_layers]. rewrite put_same by lia. split; [reflexivity |]. rewrite CL, cut_app, <- C by lia. exact M.
  - rewrite !cut_app by lia. destruct (K i ltac:(lia)) as (yi & Ei & Mi). exists yi. split; [cbn [b_layers]; rewrite put_before by lia; exact Ei | exact Mi].
Qed.
Lemma fixed_all : forall room k l b, (l + k <= room)%nat -> fixed_ok room l b -> exists b', fixed_layers P m imsb k l b = Some b' /\ fixed_ok room (l + k) b' /\ kept b b'.
Proof.
  intros room. induction k as [| k IH]; intros l b H F; cbn [fixed_layers]; [exists b; rewrite Nat.add_0_r; split; [reflexivity |]; split; [exact F | split; reflexivity] |].
  destruct (fixed_step room l b ltac:(lia) F) as (b1 & -> & F1 & K1). destruct (IH (S l) b1 ltac:(lia) F1) as (b2 & E2 & F2 & K2). exists b2. split; [exact E2 |].
  replace (l + S k)%nat with (S l + k)%nat by lia. split; [exact F2 |]. destruct K1, K2. split; congruence.
Qed.
Lemma fixed_done : forall room n b, fixed_ok room n b -> done room n b.
Proof.
  intros room n b (S & Lr & T & C & K). split; [exact S |]. split; [exact Lr |]. exists (map (fixed_cut m imsb) (seq 0 n)). split; [rewrite map_length, seq_length; reflexivity |].
  split; [| split; assumption]. apply asc_map; intros i H; [apply fixed_top; exact T | apply fixed_up].
Qed.
End Fixed.
End Rate.
