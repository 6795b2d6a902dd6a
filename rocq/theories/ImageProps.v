(** C87: programs that use images as they are meant to be used never free anything
    twice or free junk, no memory belongs to two images, and nothing is lost unless a
    profile is put where one is. *)

From Coq Require Import List Bool Arith Lia.
From Verif Require Import ImageModel.
Import ListNotations.

(** * Specification *)

(** How often allocation [id] is referred to. *)
Definition at_ptr (id : nat) (p : ptr) : nat := match p with To a => if a =? id then 1 else 0 | _ => 0 end.
Fixpoint sum {A} (f : A -> nat) (l : list A) : nat := match l with [] => 0 | x :: l => f x + sum f l end.
Definition refs (id : nat) (i : image) : nat :=
  match m_comps i with None => 0 | Some (a, ds) => at_ptr id (To a) + sum (at_ptr id) ds end + at_ptr id (m_icc i).
Definition count (id : nat) (h : heap) : nat := count_occ Nat.eq_dec (h_live h) id.

(** What a caller must respect: images exist and are different, component numbers are
    in range, data are handed to an image with no more components than there are, and
    when components are selected these are all that have data. *)
Definition has_data (i : image) (k : nat) : Prop :=
  exists a ds p, m_comps i = Some (a, ds) /\ nth_error ds k = Some p /\ p <> Null.
Definition legal (l : list image) (o : op) : Prop :=
  match o with
  | ONew | OTile _ _ => True
  | OCopy _ _ s d => s <> d /\ s < length l /\ d < length l
  | OData _ i k => exists x, nth_error l i = Some x /\ k < m_num x
  | OIcc _ _ i | OTake i | ODestroy i => i < length l
  | OMove s d => s <> d /\ exists x y, nth_error l s = Some x /\ nth_error l d = Some y /\ m_num y <= m_num x
  | OSelect _ idx s d => s <> d /\ exists x y, nth_error l s = Some x /\ nth_error l d = Some y /\
      0 < m_num y <= m_num x /\ (forall k, In k idx -> k < m_num x) /\ (forall k, has_data x k -> In k idx)
  end.
(** No profile is put where one is. *)
Definition careful (l : list image) (o : op) : Prop :=
  match o with
  | OIcc _ false i => exists x, nth_error l i = Some x /\ m_icc x = Null
  | OCopy _ _ s d => exists x y, nth_error l s = Some x /\ nth_error l d = Some y /\ (m_icc x = Null \/ m_icc y = Null)
  | _ => True
  end.
Fixpoint run (os : list op) (st : list image * heap) : option (list image * heap) :=
  match os with [] => Some st | o :: os => match step o st with None => None | Some st => run os st end end.
(** Every operation satisfies [P] in the state it meets. *)
Fixpoint always (P : list image -> op -> Prop) (os : list op) (st : list image * heap) : Prop :=
  match os with [] => True | o :: os => P (fst st) o /\ (forall st', step o st = Some st' -> always P os st') end.

Definition start : list image * heap := ([], mkHeap [] 0).

(** * Proof *)

Definition clean (p : ptr) : Prop := p <> Junk.
Definition wf (i : image) : Prop :=
  match m_comps i with None => m_num i = 0 | Some (a, ds) => m_num i = length ds /\ Forall clean ds end /\ clean (m_icc i).
Definition good (h : heap) : Prop := forall id, count id h <= 1 /\ (h_next h <= id -> count id h = 0).

Lemma remove1_ok a l : 0 < count_occ Nat.eq_dec l a ->
  exists l', remove1 a l = Some l' /\ forall id, count_occ Nat.eq_dec l' id + at_ptr id (To a) = count_occ Nat.eq_dec l id.
Proof.
  induction l as [|b l IH]; simpl; intros H; [lia|].
  destruct (Nat.eqb_spec a b) as [E|E].
  - exists l; split; [reflexivity|]. intros id. subst b. destruct (Nat.eq_dec a id), (Nat.eqb_spec a id); lia.
  - destruct (Nat.eq_dec b a); [congruence|]. destruct (IH H) as (l' & R & C). rewrite R. exists (b :: l').
    split; [reflexivity|]. intros id. specialize (C id). simpl in *. destruct (Nat.eq_dec b id); lia.
Qed.

Lemma free_ok p h : clean p -> good h -> (forall id, at_ptr id p <= count id h) ->
  exists h', free p h = Some h' /\ good h' /\ forall id, count id h' + at_ptr id p = count id h.
Proof.
  intros C G L. destruct p as [|a|]; [| |congruence].
  - exists h. split; [reflexivity|]. split; [exact G|]. intros id. cbn [at_ptr]. lia.
  - pose proof (L a) as La. simpl in La. rewrite Nat.eqb_refl in La.
    destruct (remove1_ok a (h_live h)) as (l' & R & K); [unfold count in La; lia|].
    simpl. rewrite R. exists (mkHeap l' (h_next h)). split; [reflexivity|].
    assert (Q : forall id, count id (mkHeap l' (h_next h)) + at_ptr id (To a) = count id h) by (intros id; apply K).
    split; [|exact Q]. intros id. specialize (Q id). destruct (G id) as [G1 G2]. split; [lia|].
    simpl h_next. intros N. specialize (G2 N). lia.
Qed.

Lemma free_all_ok ds : forall h, Forall clean ds -> good h -> (forall id, sum (at_ptr id) ds <= count id h) ->
  exists h', free_all ds h = Some h' /\ good h' /\ forall id, count id h' + sum (at_ptr id) ds = count id h.
Proof.
  induction ds as [|p ds IH]; intros h C G L.
  - exists h. split; [reflexivity|]. split; [exact G|]. intros id. cbn [sum]. lia.
  - inversion C; subst. destruct (free_ok p h) as (h1 & F & G1 & Q1); auto.
    { intros id. specialize (L id). simpl in L. lia. }
    destruct (IH h1) as (h2 & F2 & G2 & Q2); auto.
    { intros id. specialize (L id). specialize (Q1 id). simpl in L. lia. }
    exists h2. simpl. rewrite F. split; [exact F2|]. split; [exact G2|]. intros id. specialize (Q1 id). specialize (Q2 id). lia.
Qed.

Lemma alloc_ok h : good h -> let h' := mkHeap (h_next h :: h_live h) (S (h_next h)) in
  good h' /\ forall id, count id h' = count id h + at_ptr id (To (h_next h)).
Proof.
  intros G h'. assert (Q : forall id, count id h' = count id h + at_ptr id (To (h_next h))).
  { intros id. unfold count, h'. simpl. destruct (Nat.eq_dec (h_next h) id), (Nat.eqb_spec (h_next h) id); lia. }
  split; [|exact Q]. intros id. rewrite Q. destruct (G id) as [A B]. simpl.
  destruct (Nat.eqb_spec (h_next h) id); split; intros; try lia; specialize (B ltac:(lia)); lia.
Qed.

Lemma sum_app {A} (f : A -> nat) l m : sum f (l ++ m) = sum f l + sum f m.
Proof. induction l; simpl; lia. Qed.
Lemma sum_nulls {A} id (l : list A) : sum (at_ptr id) (map (fun _ => Null) l) = 0.
Proof. induction l; simpl; auto. Qed.
Lemma sum_rep id n : sum (at_ptr id) (repeat Null n) = 0.
Proof. induction n; simpl; auto. Qed.
Lemma sum_split {A} (f : A -> nat) l k x : nth_error l k = Some x -> sum f l = sum f (firstn k l) + f x + sum f (skipn (S k) l).
Proof. revert k; induction l; intros [|k] H; simpl in *; try discriminate; [inversion H; lia|rewrite (IHl _ H); lia]. Qed.
Lemma sum_set {A} (f : A -> nat) l k x y : nth_error l k = Some x -> sum f (set_nth l k y) + f x = sum f l + f y.
Proof. intros H. unfold set_nth. rewrite sum_app, (sum_split f l k x H). cbn [sum]. lia. Qed.
Lemma sum_drop {A} (f : A -> nat) l k x : nth_error l k = Some x -> sum f (drop_nth l k) + f x = sum f l.
Proof. intros H. unfold drop_nth. rewrite sum_app, (sum_split f l k x H). lia. Qed.
Lemma sum_in {A} (f : A -> nat) l k x : nth_error l k = Some x -> f x <= sum f l.
Proof. intros H. rewrite (sum_split f l k x H). lia. Qed.
Lemma set_other {A} (l : list A) k j x : j <> k -> k < length l -> nth_error (set_nth l k x) j = nth_error l j.
Proof.
  unfold set_nth. revert k j; induction l; intros [|k] [|j] N L; simpl in *; try lia; auto. apply IHl; lia.
Qed.
Lemma set_same {A} (l : list A) k x : k < length l -> nth_error (set_nth l k x) k = Some x.
Proof. unfold set_nth. revert k; induction l; intros [|k] L; simpl in *; try lia; auto. apply IHl; lia. Qed.
Lemma set_len {A} (l : list A) k x : k < length l -> length (set_nth l k x) = length l.
Proof. intros. unfold set_nth. rewrite app_length. cbn [length]. rewrite firstn_length, skipn_length. lia. Qed.
Lemma Forall_first {A} (P : A -> Prop) l : forall k, Forall P l -> Forall P (firstn k l).
Proof. induction l; intros [|k] H; simpl; auto. inversion H; constructor; auto. Qed.
Lemma Forall_skip {A} (P : A -> Prop) l : forall k, Forall P l -> Forall P (skipn k l).
Proof. induction l; intros [|k] H; simpl; auto. inversion H; auto. Qed.
Lemma Forall_set {A} (P : A -> Prop) l k x : Forall P l -> P x -> Forall P (set_nth l k x).
Proof. intros H X. apply Forall_app; split; [apply Forall_first; auto|constructor; [auto|apply Forall_skip; auto]]. Qed.
Lemma Forall_nulls {A} (l : list A) : Forall clean (map (fun _ => Null) l).
Proof. induction l; simpl; constructor; auto; discriminate. Qed.
Lemma Forall_rep n : Forall clean (repeat Null n).
Proof. induction n; simpl; constructor; auto; discriminate. Qed.
Lemma Forall_nth {A} (P : A -> Prop) l k x : Forall P l -> nth_error l k = Some x -> P x.
Proof. intros H N. rewrite Forall_forall in H. apply H. eapply nth_error_In; eauto. Qed.

Lemma clear_comps_ok i h : wf i -> good h -> (forall id, refs id i <= count id h) ->
  exists h', clear_comps i h = Some (mkImage 0 None (m_icc i), h') /\ good h' /\
    forall id, count id h' + refs id i = count id h + at_ptr id (m_icc i).
Proof.
  intros [W C] G L. unfold clear_comps. destruct i as [n [[a ds]|] icc]; simpl in *.
  - destruct W as [N F]. subst n. rewrite Nat.eqb_refl.
    destruct (free_all_ok ds h) as (h1 & F1 & G1 & Q1); auto.
    { intros id. specialize (L id). unfold refs in L. simpl in L. lia. }
    rewrite F1. destruct (free_ok (To a) h1) as (h2 & F2 & G2 & Q2); auto; [discriminate| |].
    { intros id. specialize (L id). specialize (Q1 id). unfold refs in L. simpl in *. lia. }
    simpl in F2. rewrite F2. exists h2. split; [reflexivity|]. split; [exact G2|].
    intros id. specialize (L id). specialize (Q1 id). specialize (Q2 id). unfold refs in *. simpl in *. lia.
  - subst n. exists h. split; [reflexivity|]. split; [exact G|]. intros id. unfold refs. simpl. lia.
Qed.

(** What holds of an operation on image [i]: [k] is what it loses. *)
Definition does (r : option (image * heap)) (i : image) (h : heap) (k : nat -> nat) : Prop :=
  exists i' h', r = Some (i', h') /\ wf i' /\ good h' /\ forall id, count id h' + refs id i = count id h + refs id i' + k id.

Lemma copy_icc_ok ok e i h : wf i -> good h -> (forall id, refs id i <= count id h) ->
  does (copy_icc ok e i h) i h (fun id => if e then 0 else at_ptr id (m_icc i)).
Proof.
  intros [W C] G L. unfold copy_icc, clear_icc. destruct e.
  - destruct (free_ok (m_icc i) h) as (h1 & F & G1 & Q); auto.
    { intros id. specialize (L id). unfold refs in L. lia. }
    rewrite F. eexists _, h1. split; [reflexivity|]. split; [split; [exact W|discriminate]|]. split; [exact G1|].
    intros id. specialize (Q id). unfold refs. simpl. lia.
  - destruct ok; simpl.
    + destruct (alloc_ok h G) as [G1 Q]. eexists _, _. split; [reflexivity|]. split; [split; [exact W|discriminate]|].
      split; [exact G1|]. intros id. specialize (Q id). unfold refs. simpl in *. lia.
    + eexists _, h. split; [reflexivity|]. split; [split; [exact W|discriminate]|]. split; [exact G|].
      intros id. unfold refs. simpl. lia.
Qed.

Lemma destroy_ok i h : wf i -> good h -> (forall id, refs id i <= count id h) ->
  exists h', destroy i h = Some h' /\ good h' /\ forall id, count id h' + refs id i = count id h.
Proof.
  intros W G L. unfold destroy. destruct (clear_comps_ok i h W G L) as (h1 & E & G1 & Q). rewrite E.
  unfold clear_icc. cbn [m_icc]. destruct (free_ok (m_icc i) h1) as (h2 & F & G2 & Q2); auto; [apply W| |].
  { intros id. specialize (L id). specialize (Q id). lia. }
  rewrite F. exists h2. split; [reflexivity|]. split; [exact G2|]. intros id. specialize (Q id). specialize (Q2 id). lia.
Qed.

Lemma copy_header_ok ok oki x y h : wf x -> wf y -> good h -> (forall id, refs id y <= count id h) ->
  does (copy_header ok oki x y h) y h (fun id => if ok then match m_icc x with Null => 0 | _ => at_ptr id (m_icc y) end else 0).
Proof.
  intros [Wx Cx] W G L. unfold copy_header, alloc_comps.
  destruct (clear_comps_ok y h W G L) as (h1 & E & G1 & Q). rewrite E.
  destruct ok; cbn [alloc].
  - destruct (alloc_ok h1 G1) as [G2 Q2]. cbn [m_icc].
    set (ds := match m_comps x with Some (_, s) => _ | None => _ end).
    assert (D : length ds = m_num x /\ Forall clean ds /\ forall id, sum (at_ptr id) ds = 0).
    { unfold ds. destruct (m_comps x) as [[a s]|].
      - destruct Wx as [N _]. rewrite N, skipn_all2, app_nil_r by (rewrite repeat_length; lia).
        rewrite map_length. split; [reflexivity|]. split; [apply Forall_nulls|intros; apply sum_nulls].
      - rewrite Wx. simpl. auto. }
    destruct D as (D1 & D2 & D3). set (j := mkImage (m_num x) (Some (h_next h1, ds)) (m_icc y)).
    assert (Wj : wf j) by (split; [split; auto|apply W]).
    assert (Qj : forall id, count id (mkHeap (h_next h1 :: h_live h1) (S (h_next h1))) + refs id y = count id h + refs id j).
    { intros id. specialize (Q id). specialize (Q2 id). specialize (D3 id). unfold refs at 2. simpl in *. lia. }
    destruct (m_icc x) eqn:Ex; [|  |congruence].
    + exists j; eexists. split; [reflexivity|]. split; [exact Wj|]. split; [exact G2|]. intros id. specialize (Qj id). cbv beta. lia.
    + destruct (copy_icc_ok oki false j _ Wj G2) as (i' & h' & R & W' & G' & Q').
      { intros id. specialize (Qj id). specialize (L id). lia. }
      unfold j in R. eexists i', h'. split; [exact R|]. split; [exact W'|]. split; [exact G'|].
      intros id. specialize (Qj id). specialize (Q' id). cbn [m_icc] in Q'. unfold j in *. cbn [m_icc] in *. cbv beta iota in *. lia.
  - eexists _, h1. split; [reflexivity|]. split; [split; [reflexivity|apply W]|]. split; [exact G1|].
    intros id. specialize (Q id). unfold refs at 2. simpl. lia.
Qed.

Lemma alloc_data_ok ok k i h : wf i -> good h -> (forall id, refs id i <= count id h) -> k < m_num i ->
  does (alloc_data ok k i h) i h (fun _ => 0).
Proof.
  intros [W C] G L K. unfold alloc_data. destruct i as [n [[a ds]|] icc]; simpl in *; [|lia].
  destruct W as [N F]. subst n. destruct (nth_error ds k) as [p|] eqn:E; [|apply nth_error_None in E; lia].
  destruct (free_ok p h) as (h1 & F1 & G1 & Q1); auto; [eapply Forall_nth; eauto| |].
  { intros id. specialize (L id). pose proof (sum_in (at_ptr id) _ _ _ E). unfold refs in L. simpl in L. lia. }
  rewrite F1. destruct ok; cbn [alloc].
  - destruct (alloc_ok h1 G1) as [G2 Q2]. eexists _, _. split; [reflexivity|]. split.
    + split; [split; [symmetry; apply set_len; auto|apply Forall_set; auto; discriminate]|exact C].
    + split; [exact G2|]. intros id. specialize (Q1 id). specialize (Q2 id).
      pose proof (sum_set (at_ptr id) ds k p (To (h_next h1)) E). unfold refs. cbn [m_comps m_icc]. cbv beta. lia.
  - eexists _, _. split; [reflexivity|]. split.
    + split; [split; [symmetry; apply set_len; auto|apply Forall_set; auto; discriminate]|exact C].
    + split; [exact G1|]. intros id. specialize (Q1 id).
      pose proof (sum_set (at_ptr id) ds k p Null E) as S. cbn [at_ptr] in S. unfold refs. cbn [m_comps m_icc]. cbv beta. lia.
Qed.

(** The same for two images. *)
Definition does2 (r : option (image * image * heap)) (x y : image) (h : heap) (k : nat -> nat) : Prop :=
  exists x' y' h', r = Some (x', y', h') /\ wf x' /\ wf y' /\ good h' /\
    forall id, count id h' + refs id x + refs id y = count id h + refs id x' + refs id y' + k id.

Lemma move_all_ok x y h : wf x -> wf y -> good h -> (forall id, refs id x + refs id y <= count id h) -> m_num y <= m_num x ->
  does2 (move_all x y h) x y h (fun _ => 0).
Proof.
  intros Wx Wy G L K. unfold move_all. destruct x as [n [[a s]|] icc], y as [m [[b d]|] icc']; cbn [m_comps m_num m_icc] in *.
  - destruct Wx as [[Nx Fx] Cx], Wy as [[Ny Fy] Cy]. cbn [m_comps m_num m_icc] in *. subst n m.
    rewrite Nat.eqb_refl. assert (B : (length d <=? length s) = true) by (apply Nat.leb_le; lia). rewrite B. cbn [andb].
    destruct (free_all_ok d h) as (h1 & F1 & G1 & Q1); auto.
    { intros id. specialize (L id). unfold refs in L. cbn [m_comps m_icc] in L. lia. }
    rewrite F1. eexists _, _, h1. split; [reflexivity|]. split; [|split; [|split; [exact G1|]]].
    + split; [split; [cbn [m_num]; rewrite app_length, map_length, skipn_length; lia|]|exact Cx].
      apply Forall_app; split; [apply Forall_nulls|apply Forall_skip; exact Fx].
    + split; [split; [cbn [m_num]; rewrite firstn_length; lia|apply Forall_first; exact Fx]|exact Cy].
    + intros id. specialize (Q1 id). unfold refs. cbn [m_comps m_icc]. rewrite sum_app, sum_nulls.
      pose proof (sum_app (at_ptr id) (firstn (length d) s) (skipn (length d) s)) as S. rewrite firstn_skipn in S. cbv beta. lia.
  - destruct Wy as [Ny Cy]. cbn [m_comps m_num m_icc] in *. subst m.
    eexists _, _, h. split; [reflexivity|]. split; [exact Wx|]. split; [split; [reflexivity|exact Cy]|]. split; [exact G|]. intros; cbv beta; lia.
  - destruct Wx as [Nx Cx]. cbn [m_comps m_num m_icc] in *. assert (m = 0) by lia. subst n m.
    eexists _, _, h. split; [reflexivity|]. split; [split; [reflexivity|exact Cx]|]. split; [exact Wy|]. split; [exact G|]. intros; cbv beta; lia.
  - destruct Wy as [Ny Cy]. cbn [m_comps m_num m_icc] in *. subst m.
    eexists _, _, h. split; [reflexivity|]. split; [exact Wx|]. split; [split; [reflexivity|exact Cy]|]. split; [exact G|]. intros; cbv beta; lia.
Qed.

Lemma take_ok idx : forall s, (forall k, In k idx -> k < length s) -> Forall clean s ->
  exists t s', take idx s = Some (t, s') /\ length t = length idx /\ length s' = length s /\ Forall clean t /\ Forall clean s' /\
    (forall id, sum (at_ptr id) t + sum (at_ptr id) s' = sum (at_ptr id) s) /\
    (forall j p, nth_error s' j = Some p -> p <> Null -> nth_error s j = Some p /\ ~ In j idx).
Proof.
  induction idx as [|k idx IH]; intros s K F.
  - exists [], s. simpl. repeat split; auto.
  - assert (Kk : k < length s) by (apply K; left; auto).
    destruct (nth_error s k) as [p|] eqn:E; [|apply nth_error_None in E; lia].
    destruct (IH (set_nth s k Null)) as (t & s' & T & L1 & L2 & F1 & F2 & S & N).
    { intros j J. rewrite set_len by auto. apply K. right; auto. }
    { apply Forall_set; auto. discriminate. }
    cbn [take]. rewrite E, T. exists (p :: t), s'. rewrite set_len in L2 by auto.
    split; [reflexivity|]. split; [simpl; lia|]. split; [exact L2|]. split; [constructor; [exact (Forall_nth clean s k p F E)|exact F1]|].
    split; [exact F2|]. split.
    + intros id. specialize (S id). pose proof (sum_set (at_ptr id) s k p Null E) as Z. cbn [at_ptr] in Z. cbn [sum]. lia.
    + intros j q J Q. destruct (N j q J Q) as [A B]. destruct (Nat.eq_dec j k) as [->|D].
      * rewrite set_same in A by auto. congruence.
      * rewrite set_other in A by auto. split; [exact A|]. simpl. intros [X|X]; [congruence|contradiction].
Qed.

Lemma move_some_ok ok idx x y h : wf x -> wf y -> good h -> (forall id, refs id x + refs id y <= count id h) ->
  0 < m_num y <= m_num x -> (forall k, In k idx -> k < m_num x) -> (forall k, has_data x k -> In k idx) ->
  does2 (move_some ok idx x y h) x y h (fun _ => 0).
Proof.
  intros Wx Wy G L K I D. unfold move_some. destruct ok; cbn [alloc].
  2: { eexists _, _, h. split; [reflexivity|]. split; [exact Wx|]. split; [exact Wy|]. split; [exact G|]. intros; lia. }
  destruct (alloc_ok h G) as [G0 Q0]. set (h0 := mkHeap _ _) in *.
  destruct x as [n [[a s]|] icc], y as [m [[b d]|] icc']; destruct Wx as [Wx Cx], Wy as [Wy Cy]; cbn [m_comps m_num m_icc] in *; try lia.
  destruct Wx as [Nx Fx], Wy as [Ny Fy]. subst n m.
  rewrite Nat.eqb_refl. assert (B : (length d <=? length s) = true) by (apply Nat.leb_le; lia). rewrite B. cbn [andb].
  destruct (free_all_ok d h0) as (h1 & F1 & G1 & Q1); auto.
  { intros id. specialize (L id). specialize (Q0 id). unfold refs in L. cbn [m_comps m_icc] in L. lia. }
  rewrite F1. destruct (take_ok idx s I Fx) as (t & s' & T & L1 & L2 & Ft & Fs & S & N). rewrite T.
  assert (Z : forallb is_null (firstn (length d) s') = true).
  { apply forallb_forall. intros p P. assert (P' : In p s') by (rewrite <- (firstn_skipn (length d) s'); apply in_or_app; auto).
    destruct (In_nth_error _ _ P') as [j J]. destruct p; auto.
    - destruct (N j _ J) as [A X]; [discriminate|]. exfalso; apply X, D. exists a, s, (To a0). repeat split; auto. discriminate.
    - destruct (N j _ J) as [A X]; [discriminate|]. exfalso; apply X, D. exists a, s, Junk. repeat split; auto. discriminate. }
  rewrite Z. destruct (free_ok (To b) h1) as (h2 & F2 & G2 & Q2); auto; [discriminate| |].
  { intros id. specialize (L id). specialize (Q0 id). specialize (Q1 id). unfold refs in L. cbn [m_comps m_icc] in L. lia. }
  rewrite F2. eexists _, _, h2. split; [reflexivity|]. split; [split; [split; auto|exact Cx]|].
  split; [split; [split; auto|exact Cy]|]. split; [exact G2|].
  intros id. specialize (Q0 id). specialize (Q1 id). specialize (Q2 id). specialize (S id). unfold refs. cbn [m_comps m_icc]. cbv beta. lia.
Qed.

(** All images are in order; [k] counts what is lost. *)
Definition inv (k : nat -> nat) (st : list image * heap) : Prop :=
  Forall wf (fst st) /\ good (snd st) /\ forall id, count id (snd st) = sum (refs id) (fst st) + k id.

Lemma nth_in {A} (l : list A) i : i < length l -> exists x, nth_error l i = Some x.
Proof. intros H. destruct (nth_error l i) eqn:E; [eauto|apply nth_error_None in E; lia]. Qed.
Lemma nth_lt {A} (l : list A) i x : nth_error l i = Some x -> i < length l.
Proof. intros H. apply nth_error_Some. congruence. Qed.

Lemma one_ok k l h i x (f : option (image * heap)) k' : inv k (l, h) -> nth_error l i = Some x ->
  (wf x -> good h -> (forall id, refs id x <= count id h) -> does f x h k') ->
  exists st', option_map (fun r => (set_nth l i (fst r), snd r)) f = Some st' /\ inv (fun id => k id + k' id) st'.
Proof.
  intros (F & G & Q) E H. cbn [fst snd] in *. destruct H as (i' & h' & R & W & G' & Q'); auto; [eapply Forall_nth; eauto| |].
  { intros id. specialize (Q id). pose proof (sum_in (refs id) _ _ _ E). lia. }
  rewrite R. eexists. split; [reflexivity|]. split; [apply Forall_set; auto|]. split; [exact G'|].
  intros id. specialize (Q id). specialize (Q' id). cbn [fst snd]. pose proof (sum_set (refs id) l i x i' E).
  pose proof (sum_in (refs id) _ _ _ E). lia.
Qed.

Lemma two_ok k l h s d x y (f : option (image * image * heap)) k' : inv k (l, h) -> s <> d ->
  nth_error l s = Some x -> nth_error l d = Some y ->
  (wf x -> wf y -> good h -> (forall id, refs id x + refs id y <= count id h) -> does2 f x y h k') ->
  exists st', option_map (fun r => (set_nth (set_nth l s (fst (fst r))) d (snd (fst r)), snd r)) f = Some st' /\ inv (fun id => k id + k' id) st'.
Proof.
  intros (F & G & Q) N Es Ed H. cbn [fst snd] in *.
  assert (Ed' : forall z, nth_error (set_nth l s z) d = Some y) by (intros; rewrite set_other; auto; eapply nth_lt; eauto).
  assert (Le : forall id, refs id x + refs id y <= sum (refs id) l).
  { intros id. pose proof (sum_set (refs id) l s x new_image Es) as Z. pose proof (sum_in (refs id) _ _ _ (Ed' new_image)).
    change (refs id new_image) with 0 in Z. lia. }
  destruct H as (x' & y' & h' & R & Wx & Wy & G' & Q'); [exact (Forall_nth wf l s x F Es)|exact (Forall_nth wf l d y F Ed)|exact G| |].
  { intros id. specialize (Q id). specialize (Le id). lia. }
  rewrite R. eexists. split; [reflexivity|]. split; [apply Forall_set; auto; apply Forall_set; auto|]. split; [exact G'|].
  intros id. specialize (Q id). specialize (Q' id). specialize (Le id). cbn [fst snd].
  pose proof (sum_set (refs id) l s x x' Es). pose proof (sum_set (refs id) _ d y y' (Ed' x')). lia.
Qed.

Lemma step_ok k o st : inv k st -> legal (fst st) o ->
  exists st' k', step o st = Some st' /\ inv (fun id => k id + k' id) st' /\ (careful (fst st) o -> forall id, k' id = 0).
Proof.
  destruct st as [l h]. intros I Lg. cbn [fst] in *. destruct o; cbn [step]; cbv zeta beta.
  - eexists _, (fun _ => 0). split; [reflexivity|]. split; [|auto]. destruct I as (F & G & Q). split; [|split; [exact G|]].
    + cbn [fst]. apply Forall_app; split; auto. constructor; [|constructor]. split; [reflexivity|discriminate].
    + intros id. specialize (Q id). cbn [fst snd] in *. rewrite sum_app. change (sum (refs id) [new_image]) with 0. lia.
  - destruct I as (F & G & Q). cbn [fst snd] in *. destruct ok; cbn [alloc_comps clear_comps new_image m_comps alloc m_icc].
    + destruct (alloc_ok h G) as [G1 Q1]. eexists _, (fun _ => 0). split; [reflexivity|]. split; [|auto]. split; [|split; [exact G1|]].
      * cbn [fst]. apply Forall_app; split; auto. constructor; [|constructor].
        split; [split; [symmetry; apply repeat_length|apply Forall_rep]|discriminate].
      * intros id. specialize (Q id). specialize (Q1 id). cbn [fst snd] in *. rewrite sum_app. cbn [sum]. unfold refs at 2. cbn [m_comps m_icc].
        rewrite sum_rep. cbn [at_ptr] in *. lia.
    + eexists _, (fun _ => 0). split; [reflexivity|]. split; [|auto]. split; [exact F|]. split; [exact G|].
      intros id. specialize (Q id). cbn [fst snd]. lia.
  - destruct Lg as (N & A & B). destruct (nth_in l src A) as [x X], (nth_in l dst B) as [y Y]. rewrite X, Y.
    destruct (two_ok k l h src dst x y (option_map (fun r => (x, fst r, snd r)) (copy_header ok ok_icc x y h))
      (fun id => if ok then match m_icc x with Null => 0 | _ => at_ptr id (m_icc y) end else 0) I N X Y) as (st' & R & I').
    { intros Wx Wy G L. destruct (copy_header_ok ok ok_icc x y h Wx Wy G) as (i' & h' & R & W' & G' & Q').
      { intros id. specialize (L id). lia. }
      rewrite R. exists x, i', h'. split; [reflexivity|]. split; [exact Wx|]. split; [exact W'|]. split; [exact G'|].
      intros id. specialize (Q' id). lia. }
    eexists st', _. split; [exact R|]. split; [exact I'|]. cbn [careful].
    intros (x0 & y0 & X0 & Y0 & C) id. assert (x0 = x) by congruence. assert (y0 = y) by congruence. subst.
    destruct ok; auto. destruct C as [C|C]; rewrite C; auto. destruct (m_icc x); auto.
  - destruct Lg as (x & X & K). rewrite X.
    destruct (one_ok k l h i x (alloc_data ok k0 x h) (fun _ => 0) I X) as (st' & R & I'); [intros; apply alloc_data_ok; auto|].
    eexists st', _. split; [exact R|]. split; [exact I'|auto].
  - destruct (nth_in l i Lg) as [x X]. rewrite X.
    destruct (one_ok k l h i x (copy_icc ok empty x h) _ I X (copy_icc_ok ok empty x h)) as (st' & R & I').
    eexists st', _. split; [exact R|]. split; [exact I'|]. cbn [careful]. destruct empty; auto.
    intros (x0 & X0 & C) id. assert (x0 = x) by congruence. subst. rewrite C. reflexivity.
  - destruct Lg as (N & x & y & X & Y & K). rewrite X, Y.
    destruct (two_ok k l h src dst x y (move_all x y h) (fun _ => 0) I N X Y) as (st' & R & I'); [intros; apply move_all_ok; auto|].
    eexists st', _. split; [exact R|]. split; [exact I'|auto].
  - destruct Lg as (N & x & y & X & Y & K & J & D). rewrite X, Y.
    destruct (two_ok k l h src dst x y (move_some ok idx x y h) (fun _ => 0) I N X Y) as (st' & R & I'); [intros; apply move_some_ok; auto|].
    eexists st', _. split; [exact R|]. split; [exact I'|auto].
  - destruct (nth_in l i Lg) as [x X]. rewrite X. destruct I as (F & G & Q). cbn [fst snd] in *.
    eexists _, (fun _ => 0). split; [reflexivity|]. split; [|auto]. pose proof (Forall_nth wf l i x F X) as [W C].
    assert (T : wf (fst (take_comps x)) /\ wf (snd (take_comps x)) /\
      forall id, refs id (fst (take_comps x)) + refs id (snd (take_comps x)) = refs id x).
    { unfold take_comps, wf, refs. destruct x as [n [[a ds]|] icc]; cbn [fst snd m_comps m_num m_icc at_ptr] in *.
      - repeat split; auto; try discriminate; try apply W. intros; lia.
      - repeat split; auto; try discriminate. }
    destruct T as (T1 & T2 & T3). split; [|split; [exact G|]].
    + cbn [fst]. apply Forall_app; split; [apply Forall_set; auto|constructor; auto].
    + intros id. specialize (Q id). specialize (T3 id). cbn [fst snd]. rewrite sum_app. cbn [sum].
      pose proof (sum_set (refs id) l i x (fst (take_comps x)) X). lia.
  - destruct (nth_in l i Lg) as [x X]. rewrite X. destruct I as (F & G & Q). cbn [fst snd] in *.
    destruct (destroy_ok x h) as (h' & R & G' & Q'); auto; [eapply Forall_nth; eauto| |].
    { intros id. specialize (Q id). pose proof (sum_in (refs id) _ _ _ X). lia. }
    rewrite R. eexists _, (fun _ => 0). split; [reflexivity|]. split; [|auto]. split; [|split; [exact G'|]].
    + cbn [fst]. unfold drop_nth. apply Forall_app; split; [apply Forall_first; auto|apply Forall_skip; auto].
    + intros id. specialize (Q id). specialize (Q' id). cbn [fst snd]. pose proof (sum_drop (refs id) l i x X). lia.
Qed.

Lemma inv_ext k k' st : (forall id, k id = k' id) -> inv k st -> inv k' st.
Proof. intros E (F & G & Q). split; [exact F|]. split; [exact G|]. intros id. rewrite <- E. apply Q. Qed.

Lemma run_ok os : forall k st, inv k st -> always legal os st ->
  exists st' k', run os st = Some st' /\ inv (fun id => k id + k' id) st' /\ (always careful os st -> forall id, k' id = 0).
Proof.
  induction os as [|o os IH]; intros k st I A.
  - exists st, (fun _ => 0). split; [reflexivity|]. split; [|auto]. eapply inv_ext; [|exact I]. intros; cbv beta; lia.
  - destruct A as [A1 A2]. destruct (step_ok k o st I A1) as (s1 & k1 & S1 & I1 & C1).
    destruct (IH _ s1 I1 (A2 _ S1)) as (s2 & k2 & S2 & I2 & C2).
    exists s2, (fun id => k1 id + k2 id). cbn [run]. rewrite S1. split; [exact S2|]. split.
    + eapply inv_ext; [|exact I2]. intros; cbv beta; lia.
    + intros [B1 B2] id. rewrite (C1 B1 id), (C2 (B2 _ S1) id). reflexivity.
Qed.

Lemma start_inv : inv (fun _ => 0) start.
Proof. split; [constructor|]. split; [|reflexivity]. intros id. split; [|reflexivity]. simpl. auto. Qed.

(** * Theorems *)

(** Nothing is freed twice, no junk is freed; what images refer to is live, and no
    allocation is referred to twice, by one image or by two. *)
Theorem c87_safe os : always legal os start ->
  exists l h, run os start = Some (l, h) /\ forall id, sum (refs id) l <= count id h /\ count id h <= 1.
Proof.
  intros A. destruct (run_ok os _ _ start_inv A) as ([l h] & k & R & (F & G & Q) & _).
  exists l, h. split; [exact R|]. intros id. specialize (Q id). cbn [fst snd] in *. split; [lia|apply G].
Qed.

(** With careful use everything live is referred to; so when all images are gone,
    nothing is left. *)
Theorem c87_no_leak os l h : always legal os start -> always careful os start -> run os start = Some (l, h) ->
  (forall id, sum (refs id) l = count id h) /\ (l = [] -> h_live h = []).
Proof.
  intros A C E. destruct (run_ok os _ _ start_inv A) as (st & k & R & (F & G & Q) & K).
  assert (st = (l, h)) by congruence. subst st. cbn [fst snd] in *. specialize (K C).
  assert (X : forall id, sum (refs id) l = count id h) by (intros id; specialize (Q id); rewrite K in Q; lia).
  split; [exact X|]. intros ->. destruct h as [[|a live] nx]; auto. specialize (X a). unfold count in X. simpl in X.
  destruct (Nat.eq_dec a a); [discriminate|contradiction].
Qed.

(** What is handed over arrives: the components of the caller's image get the data of
    the codec's, which keeps none of them; of chosen components the caller gets the
    data in the order asked for. Other images and the profiles stay. *)
Definition data (i : image) (k : nat) : option ptr := match m_comps i with None => None | Some (_, ds) => nth_error ds k end.
Definition reached (l : list image) (h : heap) : Prop := exists os, always legal os start /\ run os start = Some (l, h).

Lemma reached_inv l h : reached l h -> exists k, inv k (l, h).
Proof.
  intros (os & A & E). destruct (run_ok os _ _ start_inv A) as (st & k & R & I & _).
  assert (st = (l, h)) by congruence. subst. eauto.
Qed.

Lemma nth_first {A} (l : list A) : forall n k, k < n -> nth_error (firstn n l) k = nth_error l k.
Proof. induction l; intros [|n] [|k] H; simpl; auto; try lia. apply IHl. lia. Qed.
Lemma nth_nulls {A B} (b : B) (l : list A) m : forall k, k < length l -> nth_error (map (fun _ => b) l ++ m) k = Some b.
Proof. induction l; intros [|k] H; simpl in *; auto; try lia. apply IHl. lia. Qed.

Theorem c87_hand_all l h s d x y : reached l h -> s <> d -> nth_error l s = Some x -> nth_error l d = Some y -> m_num y <= m_num x ->
  exists l' h' x' y', step (OMove s d) (l, h) = Some (l', h') /\ nth_error l' s = Some x' /\ nth_error l' d = Some y' /\
    m_num y' = m_num y /\ m_num x' = m_num x /\ m_icc y' = m_icc y /\ m_icc x' = m_icc x /\
    (forall k, k < m_num y -> data y' k = data x k /\ data x' k = Some Null) /\
    (forall j, j <> s -> j <> d -> nth_error l' j = nth_error l j).
Proof.
  intros Re N X Y K. destruct (reached_inv _ _ Re) as [k I].
  destruct (step_ok k (OMove s d) (l, h) I) as ([l' h'] & k' & S & _); [split; eauto 6|].
  pose proof (nth_lt _ _ _ X) as Ls. pose proof (nth_lt _ _ _ Y) as Ld.
  destruct I as (F & G & Q). cbn [fst snd] in *. pose proof (Forall_nth wf l s x F X) as [Wx _]. pose proof (Forall_nth wf l d y F Y) as [Wy _].
  exists l', h'. cbn [step] in S. rewrite X, Y in S. destruct (move_all x y h) as [[[x' y'] h2]|] eqn:M; [|discriminate].
  exists x', y'. cbn [step]. rewrite X, Y, M. split; [exact S|]. cbn [option_map fst snd] in S.
  assert (El : set_nth (set_nth l s x') d y' = l') by congruence. subst l'.
  split; [rewrite set_other by (auto; rewrite set_len; auto); apply set_same; auto|].
  split; [apply set_same; rewrite set_len; auto|].
  assert (O : forall j, j <> s -> j <> d -> nth_error (set_nth (set_nth l s x') d y') j = nth_error l j).
  { intros j J1 J2. rewrite set_other by (auto; rewrite set_len; auto). apply set_other; auto. }
  unfold move_all in M. destruct x as [n [[a xs]|] icc], y as [m [[b ys]|] icc']; cbn [m_comps m_num m_icc] in *.
  - destruct (_ && _); [|discriminate]. destruct (free_all ys h); [|discriminate]. cbn [option_map] in M. inversion M; subst x' y' h2.
    cbn [m_num m_icc]. repeat (split; [reflexivity|]). split; [|exact O]. intros c C. unfold data. cbn [m_comps].
    destruct Wy as [Wy _]. split; [apply nth_first; lia|apply nth_nulls; lia].
  - subst m. inversion M; subst. repeat (split; [reflexivity|]). split; [intros; lia|exact O].
  - assert (m = 0) by lia. subst m n. inversion M; subst. repeat (split; [reflexivity|]). split; [intros; lia|exact O].
  - subst m n. inversion M; subst. repeat (split; [reflexivity|]). split; [intros; lia|exact O].
Qed.

Lemma take_data idx : forall s t s', NoDup idx -> take idx s = Some (t, s') ->
  forall j c, nth_error idx j = Some c -> nth_error t j = nth_error s c.
Proof.
  induction idx as [|k idx IH]; intros s t s' U T j c J; [destruct j; discriminate|].
  inversion U; subst. cbn [take] in T. destruct (nth_error s k) as [p|] eqn:E; [|discriminate].
  destruct (take idx (set_nth s k Null)) as [[t1 s1]|] eqn:T1; [|discriminate]. cbn [option_map fst snd] in T.
  assert (t = p :: t1) by congruence. subst t. destruct j as [|j]; cbn [nth_error] in *.
  - congruence.
  - rewrite (IH _ _ _ H2 T1 _ _ J). apply set_other; [|eapply nth_lt; eauto]. intros ->. apply H1. eapply nth_error_In; eauto.
Qed.

Theorem c87_hand_some idx l h s d x y : reached l h -> legal l (OSelect true idx s d) -> NoDup idx ->
  nth_error l s = Some x -> nth_error l d = Some y ->
  exists l' h' x' y', step (OSelect true idx s d) (l, h) = Some (l', h') /\ nth_error l' s = Some x' /\ nth_error l' d = Some y' /\
    m_num y' = length idx /\ m_num x' = m_num x /\ m_icc y' = m_icc y /\ m_icc x' = m_icc x /\
    (forall j c, nth_error idx j = Some c -> data y' j = data x c) /\ (forall c, ~ has_data x' c) /\
    (forall j, j <> s -> j <> d -> nth_error l' j = nth_error l j).
Proof.
  intros Re Lg U X Y. destruct (reached_inv _ _ Re) as [k I].
  destruct (step_ok k (OSelect true idx s d) (l, h) I Lg) as ([l' h'] & k' & S & _).
  pose proof (nth_lt _ _ _ X) as Ls. pose proof (nth_lt _ _ _ Y) as Ld.
  destruct Lg as (N & x0 & y0 & X0 & Y0 & K & J & D). assert (x0 = x) by congruence. assert (y0 = y) by congruence. subst x0 y0.
  destruct I as (F & G & Q). cbn [fst snd] in *. pose proof (Forall_nth wf l s x F X) as [Wx _].
  exists l', h'. cbn [step] in S. rewrite X, Y in S. destruct (move_some true idx x y h) as [[[x' y'] h2]|] eqn:M; [|discriminate].
  exists x', y'. cbn [step]. rewrite X, Y, M. split; [exact S|]. cbn [option_map fst snd] in S.
  assert (El : set_nth (set_nth l s x') d y' = l') by congruence. subst l'.
  split; [rewrite set_other by (auto; rewrite set_len; auto); apply set_same; auto|].
  split; [apply set_same; rewrite set_len; auto|].
  assert (O : forall j, j <> s -> j <> d -> nth_error (set_nth (set_nth l s x') d y') j = nth_error l j).
  { intros j J1 J2. rewrite set_other by (auto; rewrite set_len; auto). apply set_other; auto. }
  unfold move_some in M. cbn [alloc] in M. destruct x as [n [[a xs]|] icc], y as [m [[b ys]|] icc']; cbn [m_comps m_num m_icc] in *; try discriminate.
  destruct (_ && _); [|discriminate]. destruct (free_all ys _) as [h3|]; [|discriminate].
  destruct Wx as [Wx Fx]. subst n. destruct (take_ok idx xs J Fx) as (t & s' & T & _ & _ & _ & _ & _ & Z). rewrite T in M.
  destruct (forallb is_null _); [|discriminate]. destruct (free (To b) h3); [|discriminate]. cbn [option_map] in M.
  inversion M; subst x' y' h2. cbn [m_num m_icc]. repeat (split; [reflexivity|]). split; [|split; [|exact O]].
  - intros j c C. unfold data. cbn [m_comps]. eapply take_data; eauto.
  - intros c (a0 & ds & p & E & P & NN). cbn [m_comps] in E. assert (ds = s') by congruence. subst ds.
    destruct (Z c p P NN) as [A B]. apply B, D. exists a, xs, p. auto.
Qed.

Lemma free_next p h h' : free p h = Some h' -> h_next h' = h_next h.
Proof. destruct p; cbn [free]; intros E; [congruence| |discriminate]. destruct (remove1 a (h_live h)); [|discriminate]. inversion E. reflexivity. Qed.
Lemma free_all_next ds : forall h h', free_all ds h = Some h' -> h_next h' = h_next h.
Proof.
  induction ds as [|p ds IH]; intros h h' E; cbn [free_all] in E; [congruence|].
  destruct (free p h) as [h1|] eqn:F; [|discriminate]. rewrite (IH _ _ E). eapply free_next; eauto.
Qed.
Lemma clear_next i h i' h' : clear_comps i h = Some (i', h') -> h_next h' = h_next h.
Proof.
  unfold clear_comps. destruct (m_comps i) as [[a ds]|]; [|congruence]. destruct (_ =? _); [|discriminate].
  destruct (free_all ds h) as [h1|] eqn:F; [|discriminate]. destruct (free (To a) h1) as [h2|] eqn:F2; [|discriminate].
  intros E. assert (h2 = h') by (cbn [option_map] in E; congruence). subst. rewrite (free_next _ _ _ F2). eapply free_all_next; eauto.
Qed.

(** What is asked for is made, if there is memory: a header with as many components as
    the source and no data; data of a component, the others staying; components that
    are taken, with their data. *)
Lemma makes l h x y : reached l h -> In x l -> In y l ->
  (exists y' h', copy_header true true x y h = Some (y', h') /\ m_num y' = m_num x /\
     (forall k, k < m_num x -> data y' k = Some Null) /\
     (m_icc x = Null -> m_icc y' = m_icc y) /\ (m_icc x <> Null -> m_icc y' <> Null /\ m_icc y' <> m_icc x)) /\
  (forall k, k < m_num y -> exists y' h' a, alloc_data true k y h = Some (y', h') /\ data y' k = Some (To a) /\
     m_num y' = m_num y /\ m_icc y' = m_icc y /\ forall j, j <> k -> data y' j = data y j) /\
  (m_num (fst (take_comps y)) = 0 /\ m_icc (fst (take_comps y)) = m_icc y /\
   m_num (snd (take_comps y)) = m_num y /\ m_icc (snd (take_comps y)) = Null /\
   forall j, data (snd (take_comps y)) j = data y j /\ data (fst (take_comps y)) j = None).
Proof.
  intros Re Hx Hy. destruct (reached_inv _ _ Re) as [k0 (F & G & Q)]. cbn [fst snd] in *.
  assert (Le : forall z, In z l -> forall id, refs id z <= count id h).
  { intros z Z id. destruct (In_nth_error _ _ Z) as [j J]. pose proof (sum_in (refs id) _ _ _ J). rewrite Q. lia. }
  rewrite Forall_forall in F. pose proof (F _ Hx) as [Wx Cx]. pose proof (F _ Hy) as W. split; [|split].
  - unfold copy_header, alloc_comps. destruct (clear_comps_ok y h W G (Le y Hy)) as (h1 & E & G1 & Q1).
    assert (Nx : h_next h1 = h_next h) by (eapply clear_next; eauto). rewrite E. cbn [alloc m_icc].
    set (ds := match m_comps x with Some (_, s) => _ | None => _ end).
    assert (D : forall k, k < m_num x -> nth_error ds k = Some Null).
    { intros k K. unfold ds. destruct (m_comps x) as [[a s]|]; [|lia]. destruct Wx as [N _]. apply nth_nulls. lia. }
    destruct (m_icc x) as [|a|] eqn:Ex; [| |congruence].
    + eexists _, _. split; [reflexivity|]. split; [reflexivity|]. split; [exact D|]. split; [auto|congruence].
    + unfold copy_icc. cbn [alloc]. eexists _, _. split; [reflexivity|]. split; [reflexivity|]. split; [exact D|].
      split; [discriminate|]. intros _. cbn [m_icc h_next]. split; [discriminate|]. intros C. assert (A : a = S (h_next h1)) by congruence.
      destruct (G a) as [_ Z]. specialize (Le x Hx a). unfold refs in Le. rewrite Ex in Le. cbn [at_ptr] in Le. rewrite Nat.eqb_refl in Le.
      rewrite Z in Le by lia. lia.
  - intros k K. unfold alloc_data. destruct y as [n [[a ds]|] icc]; destruct W as [W C]; cbn [m_comps m_num m_icc] in *; [|lia].
    destruct W as [N Fd]. subst n. destruct (nth_error ds k) as [p|] eqn:E; [|apply nth_error_None in E; lia].
    destruct (free_ok p h) as (h1 & F1 & _); [exact (Forall_nth clean ds k p Fd E)|exact G| |].
    { intros id. specialize (Le _ Hy id). pose proof (sum_in (at_ptr id) _ _ _ E). unfold refs in Le. cbn [m_comps m_icc] in Le. lia. }
    rewrite F1. cbn [alloc]. eexists _, _, _. split; [reflexivity|]. unfold data. cbn [m_comps m_num m_icc].
    split; [apply set_same; auto|]. split; [reflexivity|]. split; [reflexivity|]. intros j J. apply set_other; auto.
  - destruct W as [W _]. unfold take_comps, data. destruct y as [n [[a ds]|] icc]; cbn [m_comps m_num m_icc fst snd] in *; auto 6.
Qed.

(** The same of the operations of a program. *)
Theorem c87_makes l h : reached l h ->
  (forall s d x y, s <> d -> nth_error l s = Some x -> nth_error l d = Some y ->
     exists l' h' y', step (OCopy true true s d) (l, h) = Some (l', h') /\ nth_error l' d = Some y' /\ m_num y' = m_num x /\
       (forall k, k < m_num x -> data y' k = Some Null) /\
       (m_icc x = Null -> m_icc y' = m_icc y) /\ (m_icc x <> Null -> m_icc y' <> Null /\ m_icc y' <> m_icc x)) /\
  (forall i k y, nth_error l i = Some y -> k < m_num y ->
     exists l' h' y' a, step (OData true i k) (l, h) = Some (l', h') /\ nth_error l' i = Some y' /\ data y' k = Some (To a) /\
       m_num y' = m_num y /\ m_icc y' = m_icc y /\ forall j, j <> k -> data y' j = data y j) /\
  (forall i e y, nth_error l i = Some y ->
     exists l' h' y', step (OIcc true e i) (l, h) = Some (l', h') /\ nth_error l' i = Some y' /\ m_comps y' = m_comps y /\ m_num y' = m_num y /\
       (if e then m_icc y' = Null else exists a, m_icc y' = To a)) /\
  (forall i y, nth_error l i = Some y ->
     exists l' h' y' z, step (OTake i) (l, h) = Some (l', h') /\ nth_error l' i = Some y' /\ nth_error l' (length l) = Some z /\
       m_num y' = 0 /\ m_icc y' = m_icc y /\ m_num z = m_num y /\ m_icc z = Null /\ forall j, data z j = data y j /\ data y' j = None) /\
  (forall i, i < length l -> exists h', step (ODestroy i) (l, h) = Some (firstn i l ++ skipn (S i) l, h')).
Proof.
  intros Re. destruct (reached_inv _ _ Re) as [k0 I]. split; [|split; [|split; [|split]]].
  - intros s d x y N X Y. pose proof (nth_lt _ _ _ X). pose proof (nth_lt _ _ _ Y).
    destruct (makes l h x y Re (nth_error_In _ _ X) (nth_error_In _ _ Y)) as ((y' & h' & E & P) & _).
    eexists _, h', y'. cbn [step]. rewrite X, Y, E. split; [reflexivity|]. cbn [fst snd].
    split; [apply set_same; rewrite set_len; auto|exact P].
  - intros i k y Y K. pose proof (nth_lt _ _ _ Y). pose proof (nth_error_In _ _ Y) as In.
    destruct (makes l h y y Re In In) as (_ & M & _). destruct (M k K) as (y' & h' & a & E & P).
    eexists _, h', y', a. cbn [step]. rewrite Y, E. split; [reflexivity|]. cbn [fst snd]. split; [apply set_same; auto|exact P].
  - intros i e y Y. pose proof (nth_lt _ _ _ Y). cbn [step]. rewrite Y.
    destruct (step_ok k0 (OIcc true e i) (l, h) I) as (st & k' & S & _); [cbn [legal fst]; auto|].
    cbn [step] in S. rewrite Y in S. destruct (copy_icc true e y h) as [[y' h']|] eqn:C; [|discriminate].
    eexists _, h', y'. split; [reflexivity|]. cbn [fst snd]. split; [apply set_same; auto|].
    unfold copy_icc, clear_icc in C. destruct e.
    + destruct (free (m_icc y) h); [|discriminate]. cbn [option_map] in C. inversion C; subst. auto.
    + cbn [alloc] in C. inversion C; subst. cbn [m_comps m_num m_icc]. eauto.
  - intros i y Y. pose proof (nth_lt _ _ _ Y). pose proof (nth_error_In _ _ Y) as In.
    destruct (makes l h y y Re In In) as (_ & _ & A & B & C & D & E).
    eexists _, h, _, _. cbn [step]. rewrite Y. split; [reflexivity|].
    split; [rewrite nth_error_app1 by (rewrite set_len; auto); apply set_same; auto|].
    split; [rewrite nth_error_app2 by (rewrite set_len; auto); rewrite set_len, Nat.sub_diag by auto; reflexivity|]. auto 8.
  - intros i K. destruct (nth_in l i K) as [y Y]. destruct (step_ok k0 (ODestroy i) (l, h) I K) as (st & k' & S & _).
    cbn [step] in *. rewrite Y in *. destruct (destroy y h) as [h'|]; [|discriminate]. exists h'. reflexivity.
Qed.

(** A tile image has the components asked for, without data; without memory there is
    none. *)
Theorem c87_creates n l h :
  (exists i h', step (OTile true n) (l, h) = Some (l ++ [i], h') /\ m_num i = n /\ m_icc i = Null /\
     (forall k, k < n -> data i k = Some Null)) /\
  step (OTile false n) (l, h) = Some (l, h).
Proof.
  split; [|reflexivity]. eexists _, _. split; [reflexivity|]. cbn [m_num m_icc]. split; [reflexivity|]. split; [reflexivity|].
  unfold data. cbn [m_comps]. induction n as [|n IH]; intros [|k] K; simpl; auto; try lia. apply IH. lia.
Qed.

(** Operations change only the image they are for. *)
Definition aim (o : op) : option nat :=
  match o with OCopy _ _ _ d => Some d | OData _ i _ => Some i | OIcc _ _ i => Some i | OTake i => Some i | _ => None end.
Theorem c87_others l h o d l' h' j : aim o = Some d -> step o (l, h) = Some (l', h') -> j <> d -> j < length l ->
  nth_error l' j = nth_error l j.
Proof.
  intros A S J K. destruct o; cbn [aim] in A; try discriminate; inversion A; subst; cbn [step] in S.
  - destruct (nth_error l src) as [x|] eqn:X; [|discriminate]. destruct (nth_error l _) as [y|] eqn:Y in S; [|discriminate].
    destruct (copy_header ok ok_icc x y h) as [[i' h2]|]; [|discriminate]. cbn [option_map fst snd] in S.
    pose proof (nth_lt _ _ _ X). pose proof (nth_lt _ _ _ Y).
    match type of S with Some (?a, _) = _ => assert (E : a = l') by congruence end. subst l'.
    rewrite set_other by (auto; rewrite set_len; auto). destruct (Nat.eq_dec j src) as [->|N]; [rewrite set_same by auto; auto|apply set_other; auto].
  - destruct (nth_error l _) as [y|] eqn:Y in S; [|discriminate]. destruct (alloc_data _ _ _ _) as [[i' h2]|]; [|discriminate].
    cbn [option_map fst snd] in S. match type of S with Some (?a, _) = _ => assert (E : a = l') by congruence end. subst l'.
    apply set_other; auto. eapply nth_lt; eauto.
  - destruct (nth_error l _) as [y|] eqn:Y in S; [|discriminate]. destruct (copy_icc _ _ _ _) as [[i' h2]|]; [|discriminate].
    cbn [option_map fst snd] in S. match type of S with Some (?a, _) = _ => assert (E : a = l') by congruence end. subst l'.
    apply set_other; auto. eapply nth_lt; eauto.
  - destruct (nth_error l _) as [y|] eqn:Y in S; [|discriminate].
    match type of S with Some (?a, _) = _ => assert (E : a = l') by congruence end. subst l'. pose proof (nth_lt _ _ _ Y).
    rewrite nth_error_app1 by (rewrite set_len; auto). apply set_other; auto.
Qed.

(** A profile put where one is loses the old one: copying the header of an image with
    a profile twice onto the same image is enough. *)
Definition twice : list op := [ONew; ONew; OIcc true false 0; OCopy true true 0 1; OCopy true true 0 1; ODestroy 1; ODestroy 0].
Theorem c87_icc_refuted : always legal twice start /\ exists h, run twice start = Some ([], h) /\ h_live h <> [].
Proof.
  split.
  - repeat (split; [simpl; repeat split; auto; lia|intros ? E; vm_compute in E; apply (f_equal (fun o => match o with Some x => x | None => start end)) in E; cbv beta iota in E; subst]); exact I.
  - eexists. split; [vm_compute; reflexivity|discriminate].
Qed.

(** A clone shares the data with its original: destroying both frees them twice. *)
Theorem c87_clone_refuted : exists x h y h1 h2,
  run [OTile true 1; OData true 0 0] start = Some ([x], h) /\ clone true true x h = Some (y, h1) /\
  destroy x h1 = Some h2 /\ destroy y h2 = None.
Proof. do 5 eexists. split; [vm_compute; reflexivity|]. split; [vm_compute; reflexivity|]. split; vm_compute; reflexivity. Qed.

Example c87_ex : run [OTile true 2; OData true 0 0; ONew; OCopy true true 0 1; OMove 0 1] start =
  Some ([mkImage 2 (Some (0, [Null; Null])) Null; mkImage 2 (Some (2, [To 1; Null])) Null], mkHeap [2; 1; 0] 3).
Proof. reflexivity. Qed.
Example c87_ex_select : option_map fst (run [OTile true 2; OData true 0 1; ONew; OCopy true true 0 1; OSelect true [1] 0 1] start) =
  Some [mkImage 2 (Some (0, [Null; Null])) Null; mkImage 1 (Some (3, [To 1])) Null].
Proof. reflexivity. Qed.
