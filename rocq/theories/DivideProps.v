(** C61: a tile divided into tile-parts at the outermost step of its progression
    order carries each of its packets once, in that order; divided elsewhere, it
    does not. *)

From Coq Require Import ZArith List Bool Lia Sorted.
From Verif Require Import Ints Mem PiModel PiRun PiLoops PiSpec PiMath PiProofs PiVisits PiDeliver PiProps DivideModel DivideProofs.
Import ListNotations.
Local Open Scope Z_scope.

(** The tile-parts the encoder writes for a tile. *)
Definition parts_of (tp_on : bool) (flag : Z) (T : tile) (o : order) (parts : list (list packet)) : Prop :=
  exists n0, forall n, (n0 <= n)%nat ->
    tile_parts tp_on flag (t_x0 T) (t_y0 T) (t_x1 T) (t_y1 T) (t_layers T) (t_comps T) o n n = Some parts.

(** The letter of the outermost step, the coordinate of a packet it stands for,
    and the number of its values. *)
Definition outer_letter (o : order) : Z :=
  match o with LRCP => 76 | RLCP | RPCL => 82 | PCRL => 80 | CPRL => 67 end.
Definition coordinate (o : order) (q : packet) : Z :=
  let '(l, r, c, k) := q in match o with LRCP => l | RLCP | RPCL => r | CPRL => c | PCRL => k end.
Definition most_resolutions (T : tile) : Z := fold_right Z.max 0 (map nres (t_comps T)).
Definition values (T : tile) (o : order) : Z :=
  match o with LRCP => t_layers T | CPRL => Z.of_nat (length (t_comps T)) | _ => most_resolutions T end.

(** By layers and by resolutions, all resolutions must have the same number of
    precincts. *)
Definition same_precincts (T : tile) : Prop :=
  forall c r c' r', resolution T c r -> resolution T c' r' -> wide T c r * high T c r = wide T c' r' * high T c' r'.
Definition can_divide (T : tile) (o : order) : Prop :=
  match o with LRCP | RLCP => same_precincts T | CPRL => True | RPCL | PCRL => False end.

Lemma fold_left_max : forall {A} (f : A -> Z) l m, fold_left (fun m a => Z.max m (f a)) l m = fold_right Z.max m (map f l).
Proof.
  intros A f. induction l as [| a l IH]; intros m; cbn [fold_left fold_right map]; [reflexivity |]. rewrite IH.
  clear IH. induction (map f l) as [| b r IHr]; cbn [fold_right]; [lia |]. rewrite IHr. lia.
Qed.

Lemma values_count : forall T o, can_divide T o -> values T o = outer_count T o.
Proof.
  intros T o H. destruct o; cbn [can_divide] in H; try contradiction; cbn [values outer_count]; try reflexivity.
  unfold most_resolutions, max_res. rewrite fold_left_max. f_equal. unfold model_comps. rewrite map_map. apply map_ext.
  intros p. rewrite numres_make. reflexivity.
Qed.

Lemma visits_encoded : forall T o size, wf T -> order_ok T o -> room T size ->
  encodes T [all_of T o] (visits (table_cfg T (all_of T o) size) o) /\
  decodes T [all_of T o] (visits (table_cfg T (all_of T o) size) o).
Proof.
  intros T o size HW HO HR. pose proof (all_of_good T o HW HO) as HG. pose proof HG as (HV & HL & _).
  pose proof (table_suits T (all_of T o) size HW HR) as HS.
  pose proof (visits_sorted T _ _ o HW HS HV HL HO) as SO. pose proof (fun q => visits_in T _ _ o q HW HS HV HL HO) as VI. split.
  - destruct (enc_iterators_table T HW [all_of T o] None) as (sizes & F & E).
    { repeat constructor. }
    { intros e v X. discriminate. }
    destruct (encode_list T HW [all_of T o] sizes (Forall_cons _ HG (Forall_nil _)) F) as (parts & n0 & S & D).
    inversion S as [| ? part ? parts' [O I] S']; subst. inversion S'; subst. cbn [concat] in D. rewrite app_nil_r in D.
    exists n0. intros n Hn. rewrite E, (D n Hn). f_equal. apply (ordered_unique T o); [exact O | exact SO |].
    intros q. rewrite I. symmetry. apply VI.
  - destruct (c27_tile T o HW HO) as (out & D & O & _ & I). replace (visits (table_cfg T (all_of T o) size) o) with out; [exact D |].
    apply (ordered_unique T o); [exact O | exact SO |]. intros q. rewrite I, VI. symmetry. apply all_of_within. exact HW.
Qed.

(** Without division there is one tile-part, with the packets of C27. *)
Theorem c61_undivided : forall T o flag, wf T -> order_ok T o -> o <> RPCL ->
  exists out, parts_of false flag T o [out] /\ encodes T [all_of T o] out /\ decodes T [all_of T o] out /\
    ordered T o out /\ forall q, In q out <-> valid T q.
Proof.
  intros T o flag HW HO HN. destruct (part_cfg_table T HW) as (size & HR & HP).
  destruct (visits_encoded T o size HW HO HR) as [HE HDe]. pose proof (all_of_good T o HW HO) as (HV & HL & _).
  pose proof (table_suits T (all_of T o) size HW HR) as HS.
  pose proof (visits_sorted T _ _ o HW HS HV HL HO) as SO. pose proof (fun q => visits_in T _ _ o q HW HS HV HL HO) as VI.
  exists (visits (table_cfg T (all_of T o) size) o). split; [| split; [exact HE | split; [exact HDe | split; [exact SO |]]]].
  - destruct (drain_table T (all_of T o) size (fun _ => 0) HW HV HL HO HR) as (n0 & H). exists n0. intros n Hn. specialize (H n Hn).
    change (v_order (all_of T o)) with o in H. unfold tile_parts. fold (prog_of T o).
    replace (get_num_tp false flag (prog_of T o)) with (Some (1, 0%nat)) by (destruct o; [reflexivity | reflexivity | contradiction | reflexivity | reflexivity]).
    change (Nat.max 1 (Z.to_nat 1)) with 1%nat. cbn [part_loop create_encode negb]. rewrite HP by reflexivity.
    change (g_order (prog_of T o)) with o.
    match goal with |- context [drain ?g o n n true ?s] => change (drain g o n n true s) with (drain (table_cfg T (all_of T o) size) o n n true s) end.
    rewrite H. cbn [option_map]. f_equal. f_equal.
    destruct (sift_spec T (all_of T o) (table_cfg T (all_of T o) size) (visits (table_cfg T (all_of T o) size) o) (fun _ => 0) HS
      (ordered_NoDup _ _ _ SO)) as [E _].
    { apply Forall_forall. intros q Hq. apply (proj1 (VI q)). exact Hq. }
    rewrite E. generalize (visits (table_cfg T (all_of T o) size) o). induction l as [| q l IH]; [reflexivity |].
    cbn [filter Z.eqb] in *. f_equal. exact IH.
  - intros q. rewrite VI. apply all_of_within. exact HW.
Qed.

(** Division at the outermost step: one tile-part for each of its values, with the
    packets of that value; one after the other they are the packets of the
    undivided tile. *)
Theorem c61_outermost : forall T o, wf T -> order_ok T o -> can_divide T o -> 1 <= t_layers T ->
  exists parts, parts_of true (outer_letter o) T o parts /\ Z.of_nat (length parts) = values T o /\
    encodes T [all_of T o] (concat parts) /\ decodes T [all_of T o] (concat parts) /\
    forall k part q, nth_error parts k = Some part -> In q part -> coordinate o q = Z.of_nat k.
Proof.
  intros T o HW HO HD HL. assert (HD' : divisible T o) by (destruct o; exact HD).
  destruct (divided T o HW HO HD' HL) as (size & n0 & HR & H).
  exists (map (piece T size o) (range 0 (outer_count T o))).
  split. { exists n0. intros n Hn. rewrite <- (H n Hn). f_equal. destruct o; try contradiction; reflexivity. }
  split. { rewrite map_length. unfold range. rewrite map_length, seq_length, (values_count T o HD).
           assert (0 <= outer_count T o); [| lia]. pose proof (max_res_small T HW). destruct o; cbn [outer_count]; lia. }
  destruct (visits_encoded T o size HW HO HR) as [HE HDe].
  rewrite <- flat_map_concat, <- (piece_visits T size o HD'). split; [exact HE |]. split; [exact HDe |].
  intros k part q HN HI. rewrite nth_error_map in HN. destruct (nth_error (range 0 (outer_count T o)) k) as [i |] eqn:Ei; [| discriminate].
  cbn [option_map] in HN. injection HN as <-.
  assert (i = Z.of_nat k).
  { unfold range in Ei. rewrite nth_error_map in Ei. destruct (nth_error (seq 0 (Z.to_nat (outer_count T o - 0))) k) as [j |] eqn:Ej; [| discriminate].
    cbn [option_map] in Ei. injection Ei as <-. apply (nth_error_nth _ _ O) in Ej as Ej'.
    assert (k < length (seq 0 (Z.to_nat (outer_count T o - 0))))%nat by (apply nth_error_Some; congruence).
    rewrite seq_length in H0. rewrite seq_nth in Ej' by exact H0. lia. }
  subst i. rewrite <- (piece_outer T size o (Z.of_nat k) q HD' HI). destruct q as [[[l r] c] p]. destruct o; cbn [can_divide] in HD; try contradiction; reflexivity.
Qed.

(** ... so every packet of the tile is in exactly one tile-part. *)
Theorem c61_exactly_once : forall T o, wf T -> order_ok T o -> can_divide T o -> 1 <= t_layers T ->
  exists parts, parts_of true (outer_letter o) T o parts /\ ordered T o (concat parts) /\ NoDup (concat parts) /\
    forall q, In q (concat parts) <-> valid T q.
Proof.
  intros T o HW HO HD HL. destruct (c61_outermost T o HW HO HD HL) as (parts & P & _ & _ & D & _).
  exists parts. split; [exact P |]. destruct (c27_tile T o HW HO) as (out & D' & O & N & I).
  replace (concat parts) with out; [auto |].
  destruct D as (gs & G & n0 & D). destruct D' as (gs' & G' & n1 & D'). rewrite G in G'. injection G' as <-.
  specialize (D (Nat.max n0 n1) ltac:(lia)). specialize (D' (Nat.max n0 n1) ltac:(lia)). congruence.
Qed.

(** A tile of 4 x 4 samples, two components, two layers and two resolutions. *)
Definition plain : tile := mkTile 0 0 4 4 2 [mkParams 1 1 [(15, 15); (15, 15)]; mkParams 1 1 [(15, 15); (15, 15)]].
Definition shown_parts (tp_on : bool) (flag : Z) (T : tile) (o : order) : option (list (list packet)) :=
  tile_parts tp_on flag (t_x0 T) (t_y0 T) (t_x1 T) (t_y1 T) (t_layers T) (t_comps T) o 100 100.

Example c61_by_layer : shown_parts true 76 plain LRCP =
  Some [[(0, 0, 0, 0); (0, 0, 1, 0); (0, 1, 0, 0); (0, 1, 1, 0)]; [(1, 0, 0, 0); (1, 0, 1, 0); (1, 1, 0, 0); (1, 1, 1, 0)]].
Proof. vm_compute. reflexivity. Qed.
Example c61_by_resolution : shown_parts true 82 plain RLCP =
  Some [[(0, 0, 0, 0); (0, 0, 1, 0); (1, 0, 0, 0); (1, 0, 1, 0)]; [(0, 1, 0, 0); (0, 1, 1, 0); (1, 1, 0, 0); (1, 1, 1, 0)]].
Proof. vm_compute. reflexivity. Qed.
Example c61_by_component : shown_parts true 67 plain CPRL =
  Some [[(0, 0, 0, 0); (1, 0, 0, 0); (0, 1, 0, 0); (1, 1, 0, 0)]; [(0, 0, 1, 0); (1, 0, 1, 0); (0, 1, 1, 0); (1, 1, 1, 0)]].
Proof. vm_compute. reflexivity. Qed.
Example c61_whole : shown_parts false 82 plain LRCP =
  Some [[(0, 0, 0, 0); (0, 0, 1, 0); (0, 1, 0, 0); (0, 1, 1, 0); (1, 0, 0, 0); (1, 0, 1, 0); (1, 1, 0, 0); (1, 1, 1, 0)]].
Proof. vm_compute. reflexivity. Qed.

(** ** Where it fails *)

Lemma part_loop_more : forall tp x0 y0 x1 y1 L ps pos count n f n' f' p k r, (n <= n')%nat -> (f <= f')%nat ->
  part_loop tp x0 y0 x1 y1 L ps n f pos p k count = Some r ->
  (forall w g o first s l, drain_tp w g o n f first s = Some l -> drain_tp w g o n' f' first s = Some l) ->
  (forall g o first s l, drain g o n f first s = Some l -> drain g o n' f' first s = Some l) ->
  part_loop tp x0 y0 x1 y1 L ps n' f' pos p k count = Some r.
Proof.
  intros tp x0 y0 x1 y1 L ps pos. induction count as [| count IH]; intros n f n' f' p k r Hn Hf H D1 D2; [exact H |].
  cbn [part_loop] in *. destruct (create_encode tp p k pos) as [p' w]. destruct tp.
  - destruct (drain_tp _ _ _ n f _ _) as [l |] eqn:E; [| discriminate]. rewrite (D1 _ _ _ _ _ _ E).
    destruct (part_loop true x0 y0 x1 y1 L ps n f pos p' (k + 1) count) as [q |] eqn:Eq; [| discriminate].
    rewrite (IH n f n' f' p' (k + 1) q Hn Hf Eq D1 D2). exact H.
  - destruct (drain _ _ n f _ _) as [l |] eqn:E; [| discriminate]. rewrite (D2 _ _ _ _ _ E).
    destruct (part_loop false x0 y0 x1 y1 L ps n f pos p' (k + 1) count) as [q |] eqn:Eq; [| discriminate].
    rewrite (IH n f n' f' p' (k + 1) q Hn Hf Eq D1 D2). exact H.
Qed.

Lemma next_tp_more : forall w g o f f' first s r, (f <= f')%nat -> next_tp w g o f first s = Some r -> next_tp w g o f' first s = Some r.
Proof.
  intros w g o f f' first s r Hf H. unfold next_tp in *. destruct (bad_comps g); [exact H |]. cbv zeta in *.
  destruct o; try discriminate; try (destruct (first && _); [exact H |]); destruct first;
    (eapply go_more; [exact H | exact Hf]).
Qed.
Lemma next_more : forall g o f f' first s r, (f <= f')%nat -> next g o f first s = Some r -> next g o f' first s = Some r.
Proof.
  intros g o f f' first s r Hf H. unfold next in *. destruct (bad_comps g); [exact H |]. cbv zeta in *.
  destruct o; try (destruct (first && _); [exact H |]); destruct first;
    (eapply go_more; [exact H | exact Hf]).
Qed.
Lemma drain_tp_more : forall w g o n n' f f' first s l, (n <= n')%nat -> (f <= f')%nat ->
  drain_tp w g o n f first s = Some l -> drain_tp w g o n' f' first s = Some l.
Proof.
  intros w g o. induction n as [| n IH]; intros n' f f' first s l Hn Hf H; [discriminate |]. destruct n' as [| n']; [lia |].
  cbn [drain_tp] in *. destruct (next_tp w g o f first s) as [[[] s'] |] eqn:E; try discriminate; rewrite (next_tp_more _ _ _ _ _ _ _ _ Hf E).
  - destruct (drain_tp w g o n f false s') as [l' |] eqn:E'; [| discriminate]. rewrite (IH n' f f' _ _ _ ltac:(lia) Hf E'). exact H.
  - exact H.
Qed.
Lemma drain_more : forall g o n n' f f' first s l, (n <= n')%nat -> (f <= f')%nat ->
  drain g o n f first s = Some l -> drain g o n' f' first s = Some l.
Proof.
  intros g o. induction n as [| n IH]; intros n' f f' first s l Hn Hf H; [discriminate |]. destruct n' as [| n']; [lia |].
  cbn [drain] in *. destruct (next g o f first s) as [[[] s'] |] eqn:E; try discriminate; rewrite (next_more _ _ _ _ _ _ _ Hf E).
  - destruct (drain g o n f false s') as [[l' m'] |] eqn:E'; [| discriminate]. rewrite (IH n' f f' _ _ _ ltac:(lia) Hf E'). exact H.
  - exact H.
Qed.

Lemma shown_is : forall tp flag T o parts, shown_parts tp flag T o = Some parts -> parts_of tp flag T o parts.
Proof.
  intros tp flag T o parts H. exists 100%nat. intros n Hn. unfold shown_parts, tile_parts in *.
  destruct (get_num_tp _ _ _) as [[tpnum pos] |]; [| discriminate].
  eapply (part_loop_more _ _ _ _ _ _ _ _ _ 100 100); [exact Hn | exact Hn | exact H | |].
  - intros w g o' first s l X. apply (drain_tp_more _ _ _ _ _ _ _ _ _ _ Hn Hn X).
  - intros g o' first s l X. apply (drain_more _ _ _ _ _ _ _ _ _ Hn Hn X).
Qed.

(** Divided at the step after the outermost (by resolutions, in order LRCP): the
    packets of the last layer are written again and again. *)
Definition small : tile := mkTile 0 0 4 4 2 [mkParams 1 1 [(15, 15); (15, 15)]].

Lemma small_wf : wf small.
Proof.
  unfold wf. cbn [t_x0 t_x1 t_y0 t_y1 t_layers t_comps small length].
  split; [lia |]. split; [lia |]. split; [lia |]. split; [lia |]. split; [lia |]. split; [lia |].
  split. { repeat constructor; cbn; lia. }
  exists 2, 1. split; [| split; [| vm_compute; reflexivity]].
  - intros c Hc. assert (c = 0) by lia. subst c. cbn. lia.
  - intros c r [Hc Hr]. assert (c = 0) by (cbn in Hc; lia). subst c. assert (r = 0 \/ r = 1) as [-> | ->] by (cbn in Hr; lia); vm_compute; discriminate.
Qed.

Theorem c61_inner_refuted : exists T parts, wf T /\ same_precincts T /\ parts_of true 82 T LRCP parts /\
  ~ NoDup (concat parts) /\ length parts = 4%nat /\ forall q, In q (concat parts) <-> valid T q.
Proof.
  exists small, [[(0, 0, 0, 0); (0, 1, 0, 0)]; [(1, 0, 0, 0); (1, 1, 0, 0)]; [(1, 0, 0, 0); (1, 1, 0, 0)]; [(1, 0, 0, 0); (1, 1, 0, 0)]].
  split; [exact small_wf |]. split.
  { intros c r c' r' [Hc Hr] [Hc' Hr']. assert (c = 0) by (cbn in Hc; lia). assert (c' = 0) by (cbn in Hc'; lia). subst c c'.
    assert (r = 0 \/ r = 1) as [-> | ->] by (cbn in Hr; lia); assert (r' = 0 \/ r' = 1) as [-> | ->] by (cbn in Hr'; lia); reflexivity. }
  split; [apply shown_is; vm_compute; reflexivity |]. split.
  { intros N. cbn [concat app] in N. do 2 (apply NoDup_cons_iff in N; destruct N as [_ N]). apply NoDup_cons_iff in N. destruct N as [N _].
    apply N. cbn. tauto. }
  split; [reflexivity |].
  intros [[[l r] c] k]. cbn [concat app]. unfold valid. cbn [t_layers t_comps small length]. split.
  - cbn [In]. intros H. repeat (destruct H as [H | H]; [injection H as <- <- <- <-; vm_compute; intuition (try discriminate; try reflexivity) |]). destruct H.
  - intros (H1 & H2 & H3 & H4). assert (c = 0) by lia. subst c. cbn in H3.
    assert (r = 0 \/ r = 1) as [-> | ->] by lia.
    + assert (k = 0) by (change (wide small 0 0 * high small 0 0) with 1 in H4; lia). subst k.
      assert (l = 0 \/ l = 1) as [-> | ->] by lia; cbn; tauto.
    + assert (k = 0) by (change (wide small 0 1 * high small 0 1) with 1 in H4; lia). subst k.
      assert (l = 0 \/ l = 1) as [-> | ->] by lia; cbn; tauto.
Qed.

(** Resolutions with different numbers of precincts (here 4 and 8), in order LRCP,
    even undivided in effect (one layer, one tile-part): the encoder goes on to
    a precinct which does not exist (t2.rs:667 then refuses the tile). *)
Definition uneven : tile := mkTile 0 0 64 64 1 [mkParams 1 1 [(3, 6); (6, 3)]].

Lemma uneven_wf : wf uneven.
Proof.
  unfold wf. cbn [t_x0 t_x1 t_y0 t_y1 t_layers t_comps uneven length].
  split; [lia |]. split; [lia |]. split; [lia |]. split; [lia |]. split; [lia |]. split; [lia |].
  split. { repeat constructor; cbn; lia. }
  exists 2, 8. split; [| split; [| vm_compute; reflexivity]].
  - intros c Hc. assert (c = 0) by lia. subst c. cbn. lia.
  - intros c r [Hc Hr]. assert (c = 0) by (cbn in Hc; lia). subst c. assert (r = 0 \/ r = 1) as [-> | ->] by (cbn in Hr; lia); vm_compute; discriminate.
Qed.

Theorem c61_uneven_refuted : exists T part, wf T /\ parts_of true 76 T LRCP [part] /\ exists q, In q part /\ ~ valid T q.
Proof.
  exists uneven. eexists. split; [exact uneven_wf |]. split; [apply shown_is; vm_compute; reflexivity |].
  exists (0, 0, 0, 4). split; [cbn; tauto |]. intros (_ & _ & _ & H).
  change (wide uneven 0 0 * high uneven 0 0) with 4 in H. lia.
Qed.

(** Divided by position, in order PCRL: there are as many tile-parts as precincts
    in the resolution with most of them (8), which need not be as many as there
    are positions (32); what is left over is not written. *)
Theorem c61_positions_refuted : exists T parts, wf T /\ order_ok T PCRL /\ parts_of true (outer_letter PCRL) T PCRL parts /\
  exists q, valid T q /\ ~ In q (concat parts).
Proof.
  exists uneven. eexists. split; [exact uneven_wf |]. split.
  { apply usual_ok; [exact uneven_wf |]. split; [| split].
    - exists 1. split; [lia |]. repeat constructor. exists 0. cbn. lia.
    - exists 1. split; [lia |]. repeat constructor. exists 0. cbn. lia.
    - repeat constructor. cbn. lia. }
  split; [apply shown_is; vm_compute; reflexivity |].
  exists (0, 1, 0, 7). split.
  - unfold valid. cbn [t_layers t_comps uneven length]. change (wide uneven 0 1 * high uneven 0 1) with 8. change (nres (par uneven 0)) with 2. lia.
  - cbn. intros H. repeat (destruct H as [H | H]; [discriminate |]). destruct H.
Qed.

(** In order RPCL nothing can be encoded at all: the order is missing from the
    table, and the number of tile-parts, needed with or without division
    (j2k.rs:13082, 12759), is not computed but fails an assertion. *)
Theorem c61_rpcl_refuted : forall tp_on flag T, get_num_tp tp_on flag (prog_of T RPCL) = None.
Proof. intros [] flag T; reflexivity. Qed.

Print Assumptions c61_undivided.
Print Assumptions c61_outermost.
Print Assumptions c61_exactly_once.
Print Assumptions c61_inner_refuted.
Print Assumptions c61_uneven_refuted.
Print Assumptions c61_positions_refuted.
