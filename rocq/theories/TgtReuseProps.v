(** Property C85: tag trees that are used again. *)

From Coq Require Import ZArith List Bool Arith Lia.
From Verif Require Import Ints TgtModel TgtSpec TgtProofs TgtProps TgtReuseModel.
Import ListNotations.
Local Open Scope Z_scope.

(** ** Statement *)

(** The stored tree is [t]: as many nodes, all of them allocated, with the same
    contents, and each pointer leads to the parent. *)
Definition holds (r : rtree) (t : tree) : Prop :=
  r_num r = t_nodes t /\ node_size * Z.of_nat (t_nodes t) <= r_size r < 2 ^ 32 /\
  forall i, (i < t_nodes t)%nat -> r_store r i = t_store t i /\
    r_parent r i = match parent t i with Some p => Some (r_base r + node_size * Z.of_nat p) | None => None end.

(** What is done with a tree of a tile: any values may be left in its nodes, but
    nothing else is changed ([opj_tgt_setvalue], [_encode], [_decode]). *)
Definition used (f : store -> store) (r : rtree) : rtree := mkR (r_w r) (r_h r) (r_num r) (r_base r) (r_size r) (r_parent r) (f (r_store r)).

(** One tile: what the allocator says, the code-blocks across and down, the use. *)
Definition tile := (option Z * nat * nat * (store -> store))%type.
Fixpoint run (o : option rtree) (l : list tile) : option (option rtree) :=
  match l with
  | [] => Some o
  | (a, w, h, f) :: l =>
      match next a o w h with
      | Fault => None
      | Null => run None l
      | Tree r => run (Some (used f r)) l
      end
  end.

(** Precincts have at most 2^15 samples across, code-blocks at least 4. *)
Definition small (w h : nat) : Prop := Z.of_nat w <= 2 ^ 13 /\ Z.of_nat h <= 2 ^ 13.

(** ** The number of nodes *)

Lemma sum_bound : forall k f w h ls, levels f w h = Some ls -> Z.of_nat w <= 2 ^ Z.of_nat k -> Z.of_nat h <= 2 ^ Z.of_nat k ->
  3 * Z.of_nat (list_sum (map (fun d => fst d * snd d)%nat ls)) <= 4 ^ (Z.of_nat k + 1) - 1.
Proof.
  induction k; intros f w h ls H Hw Hh; (destruct f; [discriminate |]); cbn [levels] in H; (destruct (2147483647 <? _); [discriminate |]).
  - change (2 ^ Z.of_nat 0) with 1 in Hw, Hh. assert (E : (w * h <= 1)%nat) by (destruct w as [| [| w]], h as [| [| h]]; lia).
    destruct (Nat.leb_spec (w * h) 1); [| lia]. injection H as <-. cbn [map list_sum fold_right fst snd]. change (4 ^ (Z.of_nat 0 + 1)) with 4. lia.
  - assert (P : 4 ^ (Z.of_nat (S k) + 1) = 4 * 4 ^ (Z.of_nat k + 1)) by (replace (Z.of_nat (S k) + 1) with (1 + (Z.of_nat k + 1)) by lia; rewrite Z.pow_add_r by lia; lia).
    assert (Q : 2 ^ Z.of_nat (S k) = 2 * 2 ^ Z.of_nat k) by (rewrite Nat2Z.inj_succ, Z.pow_succ_r by lia; lia).
    assert (R : 4 ^ (Z.of_nat k + 1) = (2 * 2 ^ Z.of_nat k) * (2 * 2 ^ Z.of_nat k)).
    { rewrite <- Q. replace (Z.of_nat k + 1) with (Z.of_nat (S k)) by lia. rewrite <- Z.pow_mul_l. reflexivity. }
    assert (B : Z.of_nat (w * h) <= 4 ^ (Z.of_nat k + 1)) by (rewrite Nat2Z.inj_mul, R; apply Z.mul_le_mono_nonneg; lia).
    assert (0 < 2 ^ Z.of_nat k) by (apply Z.pow_pos_nonneg; lia).
    destruct (w * h <=? 1)%nat.
    + injection H as <-. cbn [map list_sum fold_right fst snd]. nia.
    + destruct (levels f _ _) as [r |] eqn:E; [| discriminate]. cbn [option_map] in H. injection H as <-.
      assert (D : forall n, Z.of_nat n <= 2 * 2 ^ Z.of_nat k -> Z.of_nat ((n + 1) / 2) <= 2 ^ Z.of_nat k).
      { intros n Hn. rewrite Nat2Z.inj_div, Nat2Z.inj_add. apply Z.lt_succ_r, Z.div_lt_upper_bound; lia. }
      specialize (IHk _ _ _ _ E (D w ltac:(lia)) (D h ltac:(lia))).
      cbn [map list_sum fold_right fst snd] in *. change (fold_right Nat.add 0%nat) with list_sum in *. rewrite Nat2Z.inj_add. lia.
Qed.

(** ** Wiring *)

Lemma wire_spec : forall ps size base i m, node_size * (Z.of_nat (i + length ps) + 1) <= size ->
  exists m', wire size base i ps m = Some m' /\ forall j, m' j =
    if ((i <=? j) && (j <=? i + length ps))%nat
    then match nth_error ps (j - i) with Some p => Some (base + node_size * Z.of_nat p) | None => None end else m j.
Proof.
  unfold node_size. induction ps as [| p ps IH]; intros size base i m H; cbn [wire length] in *.
  - replace (room size i) with true by (symmetry; unfold room, node_size; apply Z.leb_le; lia). eexists. split; [reflexivity |].
    intros j. cbv beta. destruct (Nat.eqb_spec j i) as [-> | N].
    + rewrite Nat.leb_refl, (proj2 (Nat.leb_le i (i + 0))) by lia. rewrite Nat.sub_diag. reflexivity.
    + replace ((i <=? j) && (j <=? i + 0))%nat with false; [reflexivity |]. symmetry. rewrite andb_false_iff, !Nat.leb_gt. lia.
  - replace (room size i) with true by (symmetry; unfold room, node_size; apply Z.leb_le; lia).
    destruct (IH size base (S i) (fun j => if (j =? i)%nat then Some (base + node_size * Z.of_nat p) else m j)) as (m' & E & S1); [lia |].
    exists m'. split; [exact E |]. intros j. rewrite S1. destruct (Nat.eqb_spec j i) as [-> | N].
    + replace ((S i <=? i) && (i <=? S i + length ps))%nat with false by (symmetry; rewrite andb_false_iff, !Nat.leb_gt; lia).
      rewrite Nat.leb_refl, (proj2 (Nat.leb_le i (i + S (length ps)))) by lia. rewrite Nat.sub_diag. reflexivity.
    + replace ((S i <=? j) && (j <=? S i + length ps))%nat with ((i <=? j) && (j <=? i + S (length ps)))%nat
        by (apply eq_true_iff_eq; rewrite !andb_true_iff, !Nat.leb_le; lia).
      destruct ((i <=? j) && (j <=? i + S (length ps)))%nat eqn:B; [| reflexivity].
      apply andb_true_iff in B. rewrite !Nat.leb_le in B. replace (j - i)%nat with (S (j - S i)) by lia. reflexivity.
Qed.

Lemma wire_fault : forall ps size base i m, size < node_size * (Z.of_nat (i + length ps) + 1) -> wire size base i ps m = None.
Proof.
  induction ps as [| p ps IH]; intros size base i m H; cbn [wire length] in *.
  - replace (room size i) with false; [reflexivity |]. symmetry. unfold room. apply Z.leb_gt. rewrite Nat.add_0_r in H. exact H.
  - destruct (room size i); [| reflexivity]. apply IH. replace (S i + length ps)%nat with (i + S (length ps))%nat by lia. exact H.
Qed.

(** ** The shape of a tree *)

Lemma shape_none : forall w h, (w * h = 0)%nat -> exists ps, shape w h = Some (0%nat, ps).
Proof.
  intros w h E. unfold shape. assert (L : levels 31 w h = Some [(w, h)]).
  { cbn [levels]. rewrite <- Nat2Z.inj_mul, E. reflexivity. }
  rewrite L. cbn [map list_sum fold_right fst snd]. rewrite E. eexists. reflexivity.
Qed.

Lemma shape_some : forall w h t, tgt_create w h = Some t -> shape w h = Some (t_nodes t, t_parents t) /\ (t_nodes t <> 0)%nat /\
  t_nodes t = S (length (t_parents t)) /\ t_store t = blank /\ (w * h <= t_nodes t)%nat.
Proof.
  intros w h t H. destruct (create_spec _ _ _ H) as (_ & _ & Sb & n & Hn & _ & L1 & G & _ & N).
  assert (E : t_nodes t = S (length (t_parents t))).
  { rewrite N, L1. replace n with (S (n - 1)) at 1 by lia. rewrite base_S, G. cbn [fst snd]. lia. }
  assert (B : (w * h <= t_nodes t)%nat) by (rewrite N; destruct n; [lia |]; cbn [base]; lia).
  unfold tgt_create in H. unfold shape. destruct (levels 31 w h) as [ls |]; [| discriminate].
  destruct (Nat.eqb_spec (list_sum (map (fun d => fst d * snd d)%nat ls)) 0) as [| Z0]; [discriminate |].
  injection H as <-. cbn [t_nodes t_parents t_store] in *. auto.
Qed.

Lemma shape_small : forall w h t, small w h -> tgt_create w h = Some t -> node_size * Z.of_nat (t_nodes t) < 2 ^ 32.
Proof.
  intros w h t [Hw Hh] H. unfold tgt_create in H. destruct (levels 31 w h) as [ls |] eqn:E; [| discriminate].
  pose proof (sum_bound 13 _ _ _ _ E Hw Hh) as B. destruct (_ =? 0)%nat; [discriminate |]. injection H as <-. cbn [t_nodes].
  unfold node_size. change (4 ^ (Z.of_nat 13 + 1)) with 268435456 in B. lia.
Qed.

(** ** Reuse *)

Definition good (o : option rtree) : Prop :=
  match o with
  | None => True
  | Some r => exists t, tgt_create (r_w r) (r_h r) = Some t /\ r_num r = t_nodes t /\ node_size * Z.of_nat (t_nodes t) <= r_size r < 2 ^ 32 /\
      forall i, (i < t_nodes t)%nat -> r_parent r i = match parent t i with Some p => Some (r_base r + node_size * Z.of_nat p) | None => None end
  end.

Lemma wired : forall t size base m, t_nodes t = S (length (t_parents t)) -> node_size * Z.of_nat (t_nodes t) <= size ->
  exists m', wire size base 0 (t_parents t) m = Some m' /\
    forall i, (i < t_nodes t)%nat -> m' i = match parent t i with Some p => Some (base + node_size * Z.of_nat p) | None => None end.
Proof.
  intros t size base m N B. destruct (wire_spec (t_parents t) size base 0 m) as (m' & E & F); [rewrite Nat.add_0_l; rewrite N in B; lia |].
  exists m'. split; [exact E |]. intros i Hi. rewrite F. cbn [Nat.leb andb].
  rewrite (proj2 (Nat.leb_le i (0 + length (t_parents t)))) by lia. rewrite Nat.sub_0_r. reflexivity.
Qed.

Lemma next_spec : forall a o w h, good o -> small w h ->
  match next a o w h with
  | Fault => False
  | Null => w = 0%nat \/ h = 0%nat \/ a = None
  | Tree r => r_w r = w /\ r_h r = h /\ exists t, tgt_create w h = Some t /\ holds r t
  end.
Proof.
  intros a o w h G Hs. assert (Re : forall r t, tgt_create w h = Some t -> r_w r = w -> r_h r = h -> r_num r = t_nodes t ->
    node_size * Z.of_nat (t_nodes t) <= r_size r < 2 ^ 32 ->
    (forall i, (i < t_nodes t)%nat -> r_parent r i = match parent t i with Some p => Some (r_base r + node_size * Z.of_nat p) | None => None end) ->
    match reset r with Fault => False | Null => w = 0%nat \/ h = 0%nat \/ a = None
    | Tree r => r_w r = w /\ r_h r = h /\ exists t, tgt_create w h = Some t /\ holds r t end).
  { intros r t Ht Rw Rh Rn Rs Rp. unfold reset. rewrite Rn. rewrite (proj2 (Z.leb_le _ _)) by lia. cbn [r_w r_h].
    split; [exact Rw |]. split; [exact Rh |]. exists t. split; [exact Ht |]. split; [reflexivity |]. split; [exact Rs |].
    intros i Hi. cbn [r_store r_parent r_base]. rewrite (proj2 (Nat.ltb_lt i (t_nodes t)) Hi). destruct (shape_some _ _ _ Ht) as (_ & _ & _ & -> & _).
    split; [reflexivity | apply Rp; exact Hi]. }
  destruct (Nat.eq_dec (w * h) 0) as [Z0 | NZ].
  { destruct (shape_none w h Z0) as [ps Es]. assert (w = 0%nat \/ h = 0%nat) by (apply Nat.eq_mul_0; exact Z0). destruct o as [r |]; cbn [next].
    - unfold init. destruct G as (t & Gt & _). destruct (create_spec _ _ _ Gt) as (P1 & P2 & _).
      destruct (Nat.eqb_spec (r_w r) w), (Nat.eqb_spec (r_h r) h); cbn [andb]; try (rewrite Es; cbn [Nat.eqb]; tauto). lia.
    - unfold create. rewrite Es. cbn [Nat.eqb]. tauto. }
  assert (Ex : exists t, tgt_create w h = Some t).
  { destruct Hs as [B1 B2]. apply c18_create; [lia | lia | lia | lia | nia]. }
  destruct Ex as [t Ht]. destruct (shape_some _ _ _ Ht) as (Es & Nz & Nl & Sb & _). pose proof (shape_small _ _ _ Hs Ht) as Sm.
  assert (U : u32 (node_size * Z.of_nat (t_nodes t)) = node_size * Z.of_nat (t_nodes t)) by (apply Z.mod_small; unfold node_size in *; lia).
  apply Nat.eqb_neq in Nz. destruct o as [r |]; cbn [next].
  - unfold init. destruct G as (t0 & G1 & G2 & G3 & G4).
    destruct ((r_w r =? w) && (r_h r =? h))%nat eqn:Eq.
    + apply andb_true_iff in Eq. rewrite !Nat.eqb_eq in Eq. destruct Eq as [E1 E2]. rewrite E1, E2 in G1. assert (t0 = t) by congruence. subst t0.
      apply (Re r t); assumption.
    + rewrite Es, Nz, U. unfold grow. destruct (Z.ltb_spec (r_size r) (node_size * Z.of_nat (t_nodes t))).
      * destruct a as [b |]; [| tauto]. cbn [r_size r_base r_parent r_store].
        destruct (wired t (node_size * Z.of_nat (t_nodes t)) b (fun i => if room (r_size r) i then r_parent r i else None) Nl ltac:(lia)) as (m' & -> & F).
        apply (Re _ t); cbn [r_w r_h r_num r_size r_base r_parent]; try reflexivity; try assumption. lia.
      * destruct (wired t (r_size r) (r_base r) (r_parent r) Nl ltac:(lia)) as (m' & -> & F).
        apply (Re _ t); cbn [r_w r_h r_num r_size r_base r_parent]; try reflexivity; try assumption. lia.
  - unfold create. rewrite Es, Nz. destruct a as [b |]; [| tauto].
    destruct (wired t (node_size * Z.of_nat (t_nodes t)) b (fun _ => None) Nl ltac:(lia)) as (m' & -> & F). cbn [r_w r_h].
    split; [reflexivity |]. split; [reflexivity |]. exists t. split; [exact Ht |]. split; [reflexivity |]. cbn [r_size r_store r_parent r_base].
    split; [rewrite U; lia |]. intros i Hi. split; [rewrite Sb; reflexivity | apply F; exact Hi].
Qed.

Lemma run_good : forall l o, good o -> Forall (fun x : tile => let '(_, w, h, _) := x in small w h) l -> exists o', run o l = Some o' /\ good o'.
Proof.
  induction l as [| [[[a w] h] f] l IH]; intros o G F; cbn [run]; [exists o; split; [reflexivity | exact G] |].
  inversion F as [| ? ? F1 F2]; subst. pose proof (next_spec a o w h G F1) as N. destruct (next a o w h) as [r | |].
  - apply IH; [| exact F2]. destruct N as (N1 & N2 & t & N3 & N4 & N5 & N6). cbn [good used r_w r_h r_num r_size r_base r_parent].
    rewrite N1, N2. exists t. split; [exact N3 |]. split; [exact N4 |]. split; [exact N5 |]. intros i Hi. exact (proj2 (N6 i Hi)).
  - apply IH; [exact I | exact F2].
  - contradiction.
Qed.

(** ** Theorems *)

(** However many tiles of whatever sizes the tree was used for before, and wherever
    its nodes were moved: for the next tile it is a fresh tree, and nothing is
    written outside. It is null only for a precinct without code-blocks or when there
    is no memory. *)
Theorem c85_reuse : forall l a w h, Forall (fun x : tile => let '(_, w, h, _) := x in small w h) l -> small w h ->
  exists o, run None l = Some o /\
  match next a o w h with
  | Fault => False
  | Null => w = 0%nat \/ h = 0%nat \/ a = None
  | Tree r => exists t, tgt_create w h = Some t /\ holds r t
  end.
Proof.
  intros l a w h F Hs. destruct (run_good l None I F) as (o & E & G). exists o. split; [exact E |].
  pose proof (next_spec a o w h G Hs) as N. destruct (next a o w h); [tauto | exact N | exact N].
Qed.

(** From a leaf, following pointers visits the nodes that [TgtModel] visits, and
    every pointer is the address of a node that is allocated. *)
Fixpoint follow (r : rtree) (fuel : nat) (i : nat) : list Z :=
  match fuel with
  | O => []
  | S fuel => (r_base r + node_size * Z.of_nat i) ::
      match r_parent r i with Some p => follow r fuel (Z.to_nat ((p - r_base r) / node_size)) | None => [] end
  end.
Theorem c85_follow : forall w h t r leaf, tgt_create w h = Some t -> holds r t -> (leaf < w * h)%nat ->
  follow r (t_nodes t) leaf = rev (map (fun i => r_base r + node_size * Z.of_nat i) (tgt_path t leaf)) /\
  Forall (fun p => r_base r <= p /\ p + node_size <= r_base r + r_size r) (follow r (t_nodes t) leaf).
Proof.
  intros w h t r leaf Ht (H1 & H2 & H3) Hl. pose proof (create_shaped _ _ _ Ht) as Sh. destruct (shape_some _ _ _ Ht) as (_ & _ & _ & _ & B).
  assert (K : forall i p, parent t i = Some p -> (i < t_nodes t)%nat -> (p < t_nodes t)%nat).
  { intros i p P _. exact (proj2 (proj1 (Sh i p P))). }
  assert (W : forall fuel i, (i < t_nodes t)%nat ->
    follow r fuel i = map (fun i => r_base r + node_size * Z.of_nat i) (ancestors fuel (parent t) i) /\
    Forall (fun p => r_base r <= p /\ p + node_size <= r_base r + r_size r) (follow r fuel i)).
  { induction fuel as [| fuel IH]; intros i Hi; [split; [reflexivity | constructor] |]. cbn [follow ancestors map].
    rewrite (proj2 (H3 i Hi)). assert (Bn : r_base r <= r_base r + node_size * Z.of_nat i /\ r_base r + node_size * Z.of_nat i + node_size <= r_base r + r_size r) by (unfold node_size in *; lia).
    destruct (parent t i) as [p |] eqn:P.
    - replace (r_base r + node_size * Z.of_nat p - r_base r) with (Z.of_nat p * node_size) by lia. rewrite Z.div_mul, Nat2Z.id by (unfold node_size; lia).
      destruct (IH p (K _ _ P Hi)) as [I1 I2]. split; [rewrite I1; reflexivity | constructor; assumption].
    - split; [reflexivity | constructor; [exact Bn | constructor]]. }
  destruct (W (t_nodes t) leaf ltac:(lia)) as [W1 W2]. split; [| exact W2]. unfold tgt_path. rewrite map_rev, rev_involutive. exact W1.
Qed.

(** The nodes are where the allocator says: those of a new tree at the new address;
    those of a tree used again where they were, with the size they had, or, if they
    grew, at the new address. The tree is of the size asked for. *)
Theorem c85_place : forall a o w h r, next a o w h = Tree r ->
  match o with
  | None => a = Some (r_base r)
  | Some t => (r_base r = r_base t /\ r_size r = r_size t) \/ (r_size t < r_size r /\ a = Some (r_base r))
  end /\ r_w r = w /\ r_h r = h.
Proof.
  intros a o w h r E. destruct o as [t |]; cbn [next] in E.
  - unfold init in E. destruct ((r_w t =? w) && (r_h t =? h))%nat eqn:Q.
    + apply andb_prop in Q. destruct Q as [Q1 Q2]. apply Nat.eqb_eq in Q1, Q2. unfold reset in E. destruct (_ <=? _); [| discriminate].
      inversion E; subst r. cbn [r_base r_size r_w r_h]. auto.
    + destruct (shape w h) as [[n ps] |]; [| discriminate]. destruct (n =? 0)%nat; [discriminate |].
      destruct (grow a t (u32 (node_size * Z.of_nat n))) as [t1 |] eqn:Gr; [| discriminate].
      destruct (wire (r_size t1) (r_base t1) 0 ps (r_parent t1)) as [m |]; [| discriminate].
      unfold reset in E. destruct (_ <=? _); [| discriminate]. inversion E; subst r. cbn [r_base r_size r_w r_h].
      split; [| auto]. unfold grow in Gr. destruct (Z.ltb_spec (r_size t) (u32 (node_size * Z.of_nat n))) as [L | L].
      * destruct a as [b |]; [| discriminate]. inversion Gr; subst t1. cbn [r_base r_size]. right. auto.
      * inversion Gr; subst t1. left. auto.
  - unfold create in E. destruct (shape w h) as [[n ps] |]; [| discriminate]. destruct (n =? 0)%nat; [discriminate |].
    destruct a as [b |]; [| discriminate]. destruct (wire _ b 0 ps _) as [m |]; [| discriminate].
    inversion E; subst r. cbn [r_base r_w r_h]. auto.
Qed.

(** The size is kept in 32 bits: growing to 2^28 code-blocks writes outside the
    nodes (precincts are too small for that). *)
Theorem c85_large_refuted : forall b r w h t, r_size r < 2 ^ 32 -> (r_w r, r_h r) <> (w, h) -> tgt_create w h = Some t ->
  2 ^ 28 <= Z.of_nat (w * h) -> init (Some b) r w h = Fault.
Proof.
  intros b r w h t Rs Ne Ht L. destruct (shape_some _ _ _ Ht) as (Es & Nz & Nl & Sb & Lb). unfold init.
  replace ((r_w r =? w) && (r_h r =? h))%nat with false.
  2: { symmetry. rewrite andb_false_iff, !Nat.eqb_neq. destruct (Nat.eq_dec (r_w r) w), (Nat.eq_dec (r_h r) h); try tauto. congruence. }
  rewrite Es, (proj2 (Nat.eqb_neq _ _) Nz). unfold grow. assert (U : u32 (node_size * Z.of_nat (t_nodes t)) < 2 ^ 32) by (apply Z.mod_pos_bound; lia).
  set (u := u32 _) in *. assert (S1 : forall s base m, s < 2 ^ 32 -> wire s base 0 (t_parents t) m = None).
  { intros s base m Hs. apply wire_fault. rewrite Nat.add_0_l. rewrite Nl in Lb. unfold node_size. lia. }
  destruct (r_size r <? u); cbn [r_size]; rewrite S1 by assumption; reflexivity.
Qed.

(** ** Examples *)

(** A tree of 2 x 1 leaves at address 1000 grows for 3 x 2 leaves, moves to 5000, and
    stays there for 2 x 2. *)
Definition some_tiles : list tile := [(Some 1000, 2%nat, 1%nat, fun s i => mkT 7 7 true); (Some 5000, 3%nat, 2%nat, fun s => s)].
Example c85_ex : match run None some_tiles with
  | Some (Some r) => (r_num r, r_base r, r_size r, map (r_parent r) (seq 0 9))
  | _ => (0%nat, 0, 0, []) end =
  (9%nat, 5000, 216, map (option_map (fun p => 5000 + 24 * p)) [Some 6; Some 6; Some 7; Some 6; Some 6; Some 7; Some 8; Some 8; None]).
Proof. vm_compute. reflexivity. Qed.
Example c85_ex_smaller : match run None some_tiles with
  | Some o => match next None o 2 2 with Tree r => (r_num r, r_base r, r_size r, map (r_parent r) (seq 0 6)) | _ => (0%nat, 0, 0, []) end
  | _ => (0%nat, 0, 0, []) end =
  (5%nat, 5000, 216, [Some 5096; Some 5096; Some 5096; Some 5096; None; Some 5168]).
Proof. vm_compute. reflexivity. Qed.
Example c85_ex_values : match run None some_tiles with
  | Some (Some r) => map (fun i => n_value (r_store r i)) (seq 0 9) | _ => [] end = repeat 999 9.
Proof. vm_compute. reflexivity. Qed.

Print Assumptions c85_reuse.
Print Assumptions c85_follow.
Print Assumptions c85_large_refuted.
Print Assumptions c85_place.
