(** C27: the packet iterator delivers every packet of a tile once, in the
    declared order. *)

From Coq Require Import ZArith List Bool Lia Sorted.
From Verif Require Import Ints Mem MathModel MathProps GeomModel GeomProofs PiModel PiSpec PiMath PiDeliver.
Import ListNotations.
Local Open Scope Z_scope.
Notation within := PiSpec.within.

(** What the decoder expects for progressions [vs] of a tile: its iterators can
    be set up, and draining them ends with [out]. *)
Definition decodes (T : tile) (vs : list volume) (out : list packet) : Prop :=
  exists gs, iterators (t_x0 T) (t_y0 T) (t_x1 T) (t_y1 T) (t_layers T) (t_comps T) vs = Some gs /\
  exists n0, forall n, (n0 <= n)%nat -> drain_all n n gs (fun _ => 0) = Some out.
(** What the encoder writes. *)
Definition encodes (T : tile) (vs : list volume) (out : list packet) : Prop :=
  exists n0, forall n, (n0 <= n)%nat ->
    encode_all n n (enc_iterators (t_x0 T) (t_y0 T) (t_x1 T) (t_y1 T) (t_layers T) (t_comps T) None vs) = Some out.

(** The single progression of a tile without progression changes, and the
    progressions of a POC marker as the decoder reads them. *)
Definition all_of (T : tile) (o : order) : volume := whole (t_x0 T) (t_y0 T) (t_x1 T) (t_y1 T) (t_layers T) (t_comps T) o.
Definition pocs (T : tile) (vs : list volume) : list volume := map (poc_volume (t_layers T)) vs.

Definition fine (T : tile) (v : volume) : Prop := volume_ok T v /\ order_ok T (v_order v).

(** Tiles as the codestream can describe them; [wf] adds that the table of packets
    fits. *)
Definition describable (T : tile) : Prop :=
  0 <= t_x0 T < t_x1 T /\ t_x1 T < 2 ^ 31 /\ 0 <= t_y0 T < t_y1 T /\ t_y1 T < 2 ^ 31 /\ 0 <= t_layers T < 2 ^ 16 /\
  1 <= Z.of_nat (length (t_comps T)) <= 2 ^ 14 /\
  Forall (fun p => 1 <= sx p <= 255 /\ 1 <= sy p <= 255 /\ 1 <= nres p <= 33 /\
                   Forall (fun e => 0 <= fst e <= 15 /\ 0 <= snd e <= 15) (exps p)) (t_comps T).

Lemma within_clamp : forall T v q, within T (poc_volume (t_layers T) v) q <-> within T v q.
Proof.
  intros T v [[[l r] c] k]. unfold PiSpec.within, valid, poc_volume. cbn [v_lay1 v_res0 v_res1 v_comp0 v_comp1].
  rewrite Z.min_glb_lt_iff. tauto.
Qed.

Lemma sequence_clamp : forall T vs done parts, sequence T done (pocs T vs) parts <-> sequence T done vs parts.
Proof.
  intros T. induction vs as [| v vs IH]; intros done parts; cbn [pocs map]; [tauto |].
  split; intros S; inversion S; subst; constructor; try assumption; try (apply IH; assumption).
  - intros q. rewrite <- within_clamp. auto.
  - intros q. rewrite within_clamp. auto.
Qed.

(** Progressions of a POC marker: each delivers, in its own order, the packets of
    its volume which were not delivered before. *)
Theorem c27_progressions : forall T vs, wf T -> Forall (fine T) vs ->
  exists parts, decodes T (pocs T vs) (concat parts) /\ sequence T [] vs parts.
Proof.
  intros T vs HW HF.
  assert (HG : Forall (good T) (pocs T vs)).
  { unfold pocs. rewrite Forall_map. apply (Forall_impl _ (P := fine T)); [| exact HF].
    intros v (A & B). split; [exact A |]. split; [apply Z.le_min_r | exact B]. }
  destruct (iterators_table T (pocs T vs) HW) as (sizes & F & E).
  destruct (drain_list T HW (pocs T vs) sizes [] (fun _ => 0) HG F) as (parts & n0 & S & D).
  { intros q Hq. split; [intros _ [] | reflexivity]. }
  exists parts. split; [eexists; split; [exact E | exists n0; exact D] |]. apply sequence_clamp. exact S.
Qed.

(** The result is determined, ... *)
Theorem c27_determined : forall T vs parts parts', sequence T [] vs parts -> sequence T [] vs parts' -> parts = parts'.
Proof. intros T vs parts parts' S S'. exact (sequence_unique T vs [] parts parts' S S'). Qed.

(** ... and no packet is delivered twice, nor one of the volumes left out. *)
Theorem c27_exactly_once : forall T vs, wf T -> Forall (fine T) vs ->
  exists out, decodes T (pocs T vs) out /\ NoDup out /\ forall q, In q out <-> Exists (fun v => within T v q) vs.
Proof.
  intros T vs HW HF. destruct (c27_progressions T vs HW HF) as (parts & D & S). exists (concat parts). split; [exact D |].
  destruct (sequence_in T vs [] parts S) as [N I]. split; [exact N |]. intros q. rewrite I. cbn [In]. tauto.
Qed.

Lemma all_of_within : forall T o q, wf T -> within T (all_of T o) q <-> valid T q.
Proof.
  intros T o [[[l r] c] k] HW. destruct (table T HW) as (_ & _ & _ & A3 & _). cbv zeta in A3. split; [intros [H _]; exact H |].
  intros H. split; [exact H |]. destruct H as (H1 & H2 & H3 & H4). specialize (A3 c H2).
  unfold all_of, whole. fold (model_comps T). cbn [v_lay1 v_res0 v_res1 v_comp0 v_comp1]. lia.
Qed.

Lemma all_of_good : forall T o, wf T -> order_ok T o -> good T (all_of T o).
Proof.
  intros T o HW HO. destruct (table T HW) as (A0 & A1 & A2 & A3 & A4). cbv zeta in *.
  split; [| split; [apply Z.le_refl | exact HO]].
  unfold volume_ok, all_of, whole. fold (model_comps T). cbn [v_lay1 v_res0 v_res1 v_comp0 v_comp1].
  destruct HW as (_ & _ & _ & _ & _ & HC & HP & _).
  split; [lia |]. split; [| lia]. apply Z.le_lt_trans with 33; [| lia]. unfold max_res. apply fold_max_le; [lia |].
  intros k Hk. apply in_model_comps in Hk. destruct Hk as (c & Hc & ->). rewrite PiProofs.numres_make.
  rewrite Forall_forall in HP. apply HP. unfold par. apply nth_In. lia.
Qed.

(** A tile with a single progression: the packets delivered are exactly those of
    the tile, each once, in the order declared. *)
Theorem c27_tile : forall T o, wf T -> order_ok T o ->
  exists out, decodes T [all_of T o] out /\ ordered T o out /\ NoDup out /\ forall q, In q out <-> valid T q.
Proof.
  intros T o HW HO. pose proof (all_of_good T o HW HO) as HG.
  destruct (iterators_table T [all_of T o] HW) as (sizes & F & E).
  destruct (drain_list T HW [all_of T o] sizes [] (fun _ => 0) (Forall_cons _ HG (Forall_nil _)) F) as (parts & n0 & S & D).
  { intros q Hq. split; [intros _ [] | reflexivity]. }
  inversion S as [| ? ? ? part parts' O I S']; subst. inversion S'; subst. cbn [concat] in D. rewrite app_nil_r in D.
  exists part. split; [eexists; split; [exact E | exists n0; exact D] |]. split; [exact O |].
  split; [apply (PiVisits.ordered_NoDup T o); exact O |]. intros q. rewrite I, all_of_within by exact HW. cbn [In]. tauto.
Qed.

(** For the layer and resolution orders nothing else is needed; the position
    orders need the condition of [order_ok], which holds in the usual case: the
    subsamplings differ by powers of two and there are at most ten resolutions. *)
Definition usual (T : tile) : Prop :=
  (exists d, 0 < d /\ Forall (fun p => exists k, 0 <= k /\ sx p = d * 2 ^ k) (t_comps T)) /\
  (exists d, 0 < d /\ Forall (fun p => exists k, 0 <= k /\ sy p = d * 2 ^ k) (t_comps T)) /\
  Forall (fun p => nres p <= 10) (t_comps T).

Lemma argmin : forall {A} (f : A -> Z) (l : list A), l <> [] -> exists a, In a l /\ forall b, In b l -> f a <= f b.
Proof.
  intros A f. induction l as [| a l IH]; intros H; [contradiction |]. destruct l as [| b l].
  - exists a. split; [left; reflexivity |]. intros b [<- | []]. lia.
  - destruct IH as (m & Hm & L); [discriminate |]. destruct (Z.le_gt_cases (f a) (f m)) as [C | C].
    + exists a. split; [left; reflexivity |]. intros e [<- | He]; [lia | specialize (L e He); lia].
    + exists m. split; [right; exact Hm |]. intros e [<- | He]; [lia | apply L; exact He].
Qed.

Definition resolutions (T : tile) : list (Z * Z) :=
  flat_map (fun c => map (fun r => (Z.of_nat c, Z.of_nat r)) (seq 0 (length (exps (par T (Z.of_nat c)))))) (seq 0 (length (t_comps T))).

Lemma resolutions_in : forall T c r, In (c, r) (resolutions T) <-> resolution T c r.
Proof.
  intros T c r. unfold resolutions, resolution, nres. rewrite in_flat_map. split.
  - intros (i & Hi & H). apply in_map_iff in H. destruct H as (j & E & Hj). apply in_seq in Hi, Hj.
    assert (c = Z.of_nat i /\ r = Z.of_nat j) as [-> ->] by (split; congruence). lia.
  - intros [Hc Hr]. exists (Z.to_nat c). rewrite in_seq. split; [lia |]. apply in_map_iff. exists (Z.to_nat r).
    rewrite !Z2Nat.id by lia. split; [reflexivity |]. apply in_seq. lia.
Qed.

Lemma gap_regular : forall T (gap : tile -> Z -> Z -> Z) d B, 0 < d -> B < 2 ^ 32 ->
  (exists c r, resolution T c r /\ gap T c r <= B) ->
  (forall c r, resolution T c r -> exists k, 0 <= k /\ gap T c r = d * 2 ^ k) -> regular T gap.
Proof.
  intros T gap d B Hd HB (c0 & r0 & H0 & G0) HK.
  destruct (argmin (fun cr => gap T (fst cr) (snd cr)) (resolutions T)) as ([c r] & Hin & L).
  { intros E. apply resolutions_in in H0. rewrite E in H0. exact H0. }
  cbn [fst snd] in L. apply resolutions_in in Hin. exists c, r. split; [exact Hin |].
  assert (LE : forall c' r', resolution T c' r' -> gap T c r <= gap T c' r').
  { intros c' r' H. apply (L (c', r')). apply resolutions_in. exact H. }
  split; [specialize (LE c0 r0 H0); lia |]. intros c' r' H. specialize (LE c' r' H).
  destruct (HK c r Hin) as (k & Hk & E). destruct (HK c' r' H) as (k' & Hk' & E'). rewrite E, E' in *.
  assert (k <= k').
  { destruct (Z.le_gt_cases k k') as [C | C]; [exact C |]. assert (2 ^ k' < 2 ^ k) by (apply Z.pow_lt_mono_r; lia). nia. }
  exists (2 ^ (k' - k)). replace k' with ((k' - k) + k) at 1 by ring. rewrite Z.pow_add_r by lia. ring.
Qed.

Lemma par_in : forall T c, 0 <= c < Z.of_nat (length (t_comps T)) -> In (par T c) (t_comps T).
Proof. intros T c H. unfold par. apply nth_In. lia. Qed.

Lemma usual_ok : forall T o, wf T -> usual T -> order_ok T o.
Proof.
  intros T o HW ((dx & Hdx & FX) & (dy & Hdy & FY) & FN).
  pose proof HW as (_ & _ & _ & _ & _ & HC & HP & _). rewrite Forall_forall in HP, FX, FY, FN.
  assert (EX : forall c r, resolution T c r -> 0 <= ex (par T c) r <= 15 /\ 0 <= ey (par T c) r <= 15).
  { intros c r [Hc Hr]. destruct (HP _ (par_in T c Hc)) as (_ & _ & _ & F). rewrite Forall_forall in F.
    unfold ex, ey. apply F. apply nth_In. unfold nres in Hr. lia. }
  assert (TOP : resolution T 0 (nres (par T 0) - 1)).
  { split; [lia |]. destruct (HP _ (par_in T 0 ltac:(lia))) as (_ & _ & N & _). lia. }
  assert (RX : regular T gap_x).
  { apply (gap_regular T gap_x dx (255 * 2 ^ 15)); [exact Hdx | reflexivity | |].
    - exists 0, (nres (par T 0) - 1). split; [exact TOP |]. unfold gap_x, level.
      destruct (HP _ (par_in T 0 ltac:(lia))) as (SX & _). destruct (EX _ _ TOP) as [E1 _].
      replace (nres (par T 0) - 1 - (nres (par T 0) - 1)) with 0 by ring. rewrite Z.add_0_r.
      apply Z.mul_le_mono_nonneg; [lia | lia | apply Z.pow_nonneg; lia | apply Z.pow_le_mono_r; lia].
    - intros c r HR. destruct (FX _ (par_in T c (proj1 HR))) as (k & Hk & E). destruct (EX _ _ HR) as [E1 _].
      destruct HR as [_ HR]. unfold gap_x. rewrite E. exists (k + (ex (par T c) r + level (par T c) r)). unfold level. split; [lia |].
      rewrite (Z.pow_add_r 2 k) by lia. ring. }
  assert (RY : regular T gap_y).
  { apply (gap_regular T gap_y dy (255 * 2 ^ 15)); [exact Hdy | reflexivity | |].
    - exists 0, (nres (par T 0) - 1). split; [exact TOP |]. unfold gap_y, level.
      destruct (HP _ (par_in T 0 ltac:(lia))) as (_ & SY & _). destruct (EX _ _ TOP) as [_ E1].
      replace (nres (par T 0) - 1 - (nres (par T 0) - 1)) with 0 by ring. rewrite Z.add_0_r.
      apply Z.mul_le_mono_nonneg; [lia | lia | apply Z.pow_nonneg; lia | apply Z.pow_le_mono_r; lia].
    - intros c r HR. destruct (FY _ (par_in T c (proj1 HR))) as (k & Hk & E). destruct (EX _ _ HR) as [_ E1].
      destruct HR as [_ HR]. unfold gap_y. rewrite E. exists (k + (ey (par T c) r + level (par T c) r)). unfold level. split; [lia |].
      rewrite (Z.pow_add_r 2 k) by lia. ring. }
  assert (N : narrow T).
  { intros c r HR. destruct (EX _ _ HR) as [E1 E2]. destruct HR as [Hc HR].
    destruct (HP _ (par_in T c Hc)) as (SX & SY & NR & _). pose proof (FN _ (par_in T c Hc)) as N10. cbv beta in N10.
    assert (LV : 0 <= level (par T c) r <= 9) by (unfold level; lia).
    assert (Q : forall s e, 1 <= s <= 255 -> 0 <= e <= 15 -> s * 2 ^ (e + level (par T c) r) < 2 ^ 32).
    { intros s e Hs He. apply Z.le_lt_trans with (255 * 2 ^ 24); [| reflexivity].
      apply Z.mul_le_mono_nonneg; [lia | lia | apply Z.pow_nonneg; lia | apply Z.pow_le_mono_r; lia]. }
    unfold gap_x, gap_y. split; apply Q; assumption. }
  destruct o; cbn [order_ok]; tauto.
Qed.

Theorem c27_lrcp : forall T, wf T -> exists out, decodes T [all_of T LRCP] out /\ ordered T LRCP out /\ forall q, In q out <-> valid T q.
Proof. intros T HW. destruct (c27_tile T LRCP HW I) as (out & A & B & _ & C). exists out. tauto. Qed.

Theorem c27_rlcp : forall T, wf T -> exists out, decodes T [all_of T RLCP] out /\ ordered T RLCP out /\ forall q, In q out <-> valid T q.
Proof. intros T HW. destruct (c27_tile T RLCP HW I) as (out & A & B & _ & C). exists out. tauto. Qed.

Theorem c27_position_orders : forall T o, wf T -> usual T ->
  exists out, decodes T [all_of T o] out /\ ordered T o out /\ NoDup out /\ forall q, In q out <-> valid T q.
Proof. intros T o HW HU. apply c27_tile; [exact HW | apply usual_ok; assumption]. Qed.

(** ** The encoder *)

(** Without progression changes it writes what the decoder expects. *)
Theorem c27_encoder : forall T o, wf T -> order_ok T o ->
  exists out, encodes T [all_of T o] out /\ decodes T [all_of T o] out.
Proof.
  intros T o HW HO. pose proof (all_of_good T o HW HO) as HG.
  destruct (c27_tile T o HW HO) as (out & D & O & N & J). exists out. split; [| exact D].
  destruct (enc_iterators_table T HW [all_of T o] None) as (sizes & F & E).
  { constructor; constructor. } { discriminate. }
  destruct (encode_list T HW [all_of T o] sizes (Forall_cons _ HG (Forall_nil _)) F) as (parts & n0 & P & Q).
  inversion P as [| ? part ? ps [O' J'] P']; subst. inversion P'; subst. cbn [concat] in Q. rewrite app_nil_r in Q.
  exists n0. intros n Hn. rewrite E, (Q n Hn). f_equal. apply (ordered_unique T o); [exact O' | exact O |].
  intros q. rewrite J', J. apply all_of_within. exact HW.
Qed.

(** With progression changes it does if no packet is in two volumes and the
    numbers of layers do not increase. *)
Theorem c27_encoder_progressions : forall T vs, wf T -> Forall (fine T) vs -> Forall (fun v => v_lay1 v <= t_layers T) vs ->
  disjoint T vs -> layers_descend vs ->
  exists out, encodes T vs out /\ decodes T (pocs T vs) out.
Proof.
  intros T vs HW HF HL HD HS. destruct (c27_progressions T vs HW HF) as (parts & D & S).
  exists (concat parts). split; [| exact D].
  assert (HG : Forall (good T) vs).
  { rewrite Forall_forall in *. intros v Hv. destruct (HF v Hv) as [A B]. split; [exact A |]. split; [apply HL; exact Hv | exact B]. }
  destruct (enc_iterators_table T HW vs None HS) as (sizes & F & E); [discriminate |].
  destruct (encode_list T HW vs sizes HG F) as (parts' & n0 & P & Q).
  exists n0. intros n Hn. rewrite E, (Q n Hn). f_equal. f_equal.
  apply (sequence_unique T vs []); [| exact S]. apply disjoint_sequence; [exact P | exact HD |]. intros q v _ _ [].
Qed.

(** ** The tile coder's precincts are the iterator's *)

Theorem c27_same_precincts : forall t0 t1 d lev e c start n, 0 <= t0 < t1 -> t1 < 2 ^ 31 -> 1 <= d <= 255 -> 0 <= lev <= 32 -> 0 <= e <= 15 ->
  comp_axis (t0, t1) d = Some c -> prec_axis (res_axis c lev) e = Some (start, n) ->
  n = count t0 t1 d lev e.
Proof.
  intros t0 t1 d lev e c start n H0 H1 Hd Hl He EC EP.
  rewrite count_spec by lia. pose proof (pow_bounds lev 32 Hl) as PL. pose proof (pow_bounds e 15 He) as PE.
  assert (X : forall a b q, 0 < b -> MathProps.ceil_of a b q -> q = cdiv a b).
  { intros a b q Hb C. symmetry. apply cdiv_iff; [exact Hb | exact C]. }
  unfold comp_axis in EC. cbn [fst snd] in EC. rewrite I32.i32_id in EC by (unfold I32.in_i32; lia).
  destruct (c29_int_ceildiv t0 d ltac:(lia) ltac:(lia)) as (a & EA & A). destruct (c29_int_ceildiv t1 d ltac:(lia) ltac:(lia)) as (b & EB & B).
  rewrite EA, EB in EC. injection EC as <-. apply X in A; [| lia]. apply X in B; [| lia].
  assert (EXT : extent (a, b)).
  { unfold extent. cbn [fst snd]. subst a b. pose proof (cdiv_nonneg t0 d). pose proof (cdiv_mono t0 t1 d). pose proof (cdiv_le t1 d). lia. }
  destruct (res_axis_spec (a, b) lev EXT Hl) as (R0 & R1 & RE). cbn [fst snd] in R0, R1.
  apply X in R0; [| lia]. apply X in R1; [| lia]. subst a b.
  rewrite cdiv_cdiv in R0, R1 by lia.
  destruct (prec_axis_spec _ e start n RE He EP) as (s & ee & -> & Hs & Hf & Hc & He2 & -> & Hn & _).
  apply X in Hc; [| lia]. rewrite R0, R1 in *. unfold spans.
  assert (ES : s = cdiv t0 (d * 2 ^ lev) / 2 ^ e).
  { apply (Z.div_unique _ _ s (cdiv t0 (d * 2 ^ lev) - s * 2 ^ e)); [left | ring]. rewrite Z.mul_add_distr_r in Hf. lia. }
  destruct RE as [[_ RE] _]. rewrite R0, R1 in RE.
  destruct (Z.eqb_spec (cdiv t0 (d * 2 ^ lev)) (cdiv t1 (d * 2 ^ lev))) as [Q | Q]; destruct (Z.ltb_spec (cdiv t0 (d * 2 ^ lev)) (cdiv t1 (d * 2 ^ lev))); try lia.
Qed.

(** ** Where it goes wrong *)

Lemma go_mono : forall {L} (step : L -> st -> move L) n n' l s r, (n <= n')%nat -> go step n l s = Some r -> go step n' l s = Some r.
Proof.
  intros L step. induction n as [| n IH]; intros n' l s r Hn H; [discriminate |]. destruct n' as [| n']; [lia |].
  cbn [go] in *. destruct (step l s); try exact H. apply IH; [lia | exact H].
Qed.

Lemma next_mono : forall g o n n' first s r, (n <= n')%nat -> next g o n first s = Some r -> next g o n' first s = Some r.
Proof.
  intros g o n n' first s r Hn. unfold next. destruct (bad_comps g); [tauto |]. cbv zeta.
  destruct o; repeat match goal with |- context [if ?b then _ else _] => destruct b end; try tauto; apply go_mono; exact Hn.
Qed.

Lemma drain_mono : forall g o n n' f f' first s r, (n <= n')%nat -> (f <= f')%nat -> drain g o n f first s = Some r -> drain g o n' f' first s = Some r.
Proof.
  intros g o. induction n as [| n IH]; intros n' f f' first s r Hn Hf H; [discriminate |]. destruct n' as [| n']; [lia |].
  cbn [drain] in *. destruct (next g o f first s) as [[b s'] |] eqn:E; [| discriminate].
  rewrite (next_mono g o f f' first s (b, s') Hf E). destruct b; [| exact H].
  destruct (drain g o n f false s') as [[l m] |] eqn:E2; [| discriminate]. rewrite (IH n' f f' false s' (l, m)); [exact H | lia | exact Hf | exact E2].
Qed.

Lemma drain_all_mono : forall gs n n' m r, (n <= n')%nat -> drain_all n n gs m = Some r -> drain_all n' n' gs m = Some r.
Proof.
  induction gs as [| [g o] gs IH]; intros n n' m r Hn H; [exact H |]. cbn [drain_all] in *.
  destruct (drain g o n n true _) as [[l m'] |] eqn:E; [| discriminate]. rewrite (drain_mono _ _ _ n' _ n' _ _ _ Hn Hn E).
  destruct (drain_all n n gs m') as [r' |] eqn:E2; [| discriminate]. rewrite (IH n n' m' r' Hn E2). exact H.
Qed.

Lemma encode_all_mono : forall gs n n' r, (n <= n')%nat -> encode_all n n gs = Some r -> encode_all n' n' gs = Some r.
Proof.
  induction gs as [| [g o] gs IH]; intros n n' r Hn H; [exact H |]. cbn [encode_all] in *.
  destruct (drain g o n n true _) as [[l m'] |] eqn:E; [| discriminate]. rewrite (drain_mono _ _ _ n' _ n' _ _ _ Hn Hn E).
  destruct (encode_all n n gs) as [r' |] eqn:E2; [| discriminate]. rewrite (IH n n' r' Hn E2). exact H.
Qed.

Definition run_decoder (n : nat) (T : tile) (vs : list volume) : option (list packet) :=
  match iterators (t_x0 T) (t_y0 T) (t_x1 T) (t_y1 T) (t_layers T) (t_comps T) vs with
  | Some gs => drain_all n n gs (fun _ => 0)
  | None => None
  end.
Definition run_encoder (n : nat) (T : tile) (vs : list volume) : option (list packet) :=
  encode_all n n (enc_iterators (t_x0 T) (t_y0 T) (t_x1 T) (t_y1 T) (t_layers T) (t_comps T) None vs).

Lemma run_decodes : forall n T vs out, run_decoder n T vs = Some out -> decodes T vs out.
Proof.
  intros n T vs out H. unfold run_decoder in H. destruct (iterators _ _ _ _ _ _ vs) as [gs |] eqn:E; [| discriminate].
  exists gs. split; [exact E |]. exists n. intros n' Hn. apply (drain_all_mono gs n n' _ out Hn H).
Qed.
Lemma run_encodes : forall n T vs out, run_encoder n T vs = Some out -> encodes T vs out.
Proof. intros n T vs out H. exists n. intros n' Hn. apply (encode_all_mono _ n n' out Hn H). Qed.

Ltac describe := unfold describable; cbn [t_x0 t_y0 t_x1 t_y1 t_layers t_comps length]; repeat split; try lia;
  repeat constructor; cbn [sx sy exps nres length fst snd]; unfold nres; cbn [exps length]; try lia.

(** Subsamplings 2 and 3: the scan advances by multiples of 2 and never comes to
    the second precinct of the other component. *)
Theorem c27_mixed_subsampling_refuted : exists T out q, wf T /\ decodes T [all_of T PCRL] out /\ valid T q /\ ~ In q out.
Proof.
  exists (mkTile 0 0 6 1 1 [mkParams 2 1 [(0, 0)]; mkParams 3 1 [(0, 0)]]).
  exists [(0, 0, 0, 0); (0, 0, 1, 0); (0, 0, 0, 1); (0, 0, 0, 2)], (0, 0, 1, 1).
  split; [| split; [| split]].
  - assert (D : describable (mkTile 0 0 6 1 1 [mkParams 2 1 [(0, 0)]; mkParams 3 1 [(0, 0)]])) by describe.
    destruct D as (A & B & C & D & E & F & G). repeat (split; [assumption |]). exists 1, 3. cbn [t_comps length t_layers].
    split; [| split; [| reflexivity]].
    + intros c Hc. assert (c = 0 \/ c = 1) as [-> | ->] by lia; vm_compute; discriminate.
    + intros c r [Hc Hr]. cbn [t_comps length] in Hc. assert (c = 0 \/ c = 1) as [-> | ->] by lia.
      * change (nres _) with 1 in Hr. replace r with 0 by lia. vm_compute. discriminate.
      * change (nres _) with 1 in Hr. replace r with 0 by lia. vm_compute. discriminate.
  - apply (run_decodes 100). vm_compute. reflexivity.
  - vm_compute. intuition discriminate.
  - cbn [In]. intuition discriminate.
Qed.

(** Eighteen resolutions with the default precinct size: the precinct of the
    lowest one spans 2^32, and the position orders leave its packets out. *)
Theorem c27_many_resolutions_refuted : exists T out q, wf T /\ decodes T [all_of T CPRL] out /\ valid T q /\ ~ In q out.
Proof.
  pose (p := mkParams 1 1 [(15, 15); (15, 15); (15, 15); (15, 15); (15, 15); (15, 15); (15, 15); (15, 15); (15, 15); (15, 15); (15, 15); (15, 15); (15, 15); (15, 15); (15, 15); (15, 15); (15, 15); (15, 15)]).
  exists (mkTile 0 0 1 1 1 [p]).
  eexists. exists (0, 0, 0, 0).
  split; [| split; [| split]].
  - assert (D : describable (mkTile 0 0 1 1 1 [p])) by (unfold p; describe).
    destruct D as (A & B & C & D & E & F & G). repeat (split; [assumption |]). exists 18, 1. cbn [t_comps length t_layers].
    split; [| split; [| reflexivity]].
    + intros c Hc. assert (c = 0) as -> by lia. vm_compute. discriminate.
    + intros c r [Hc Hr]. cbn [t_comps length] in Hc. assert (c = 0) as -> by lia. change (nres _) with 18 in Hr.
      assert (r = 0 \/ r = 1 \/ r = 2 \/ r = 3 \/ r = 4 \/ r = 5 \/ r = 6 \/ r = 7 \/ r = 8 \/ r = 9 \/ r = 10 \/ r = 11 \/ r = 12 \/
              r = 13 \/ r = 14 \/ r = 15 \/ r = 16 \/ r = 17) as Q by lia.
      repeat (destruct Q as [-> | Q]; [vm_compute; discriminate |]). subst r. vm_compute. discriminate.
  - apply (run_decodes 300). vm_compute. reflexivity.
  - vm_compute. intuition discriminate.
  - cbn [In]. intuition discriminate.
Qed.

(** A tile with 2^32 precincts: their number wraps to 0 and no packet is delivered. *)
Theorem c27_wrap_refuted : exists T q, describable T /\ decodes T [all_of T LRCP] [] /\ valid T q.
Proof.
  exists (mkTile 0 0 65536 65536 1 [mkParams 1 1 [(0, 0)]]), (0, 0, 0, 0).
  split; [describe |]. split; [apply (run_decodes 20); vm_compute; reflexivity |]. vm_compute. intuition discriminate.
Qed.

(** A second progression which adds a layer: the encoder writes none of its
    packets. *)
Theorem c27_poc_layers_refuted : exists T vs out out' q, Forall (fun v => v_lay1 v <= t_layers T) vs /\ Forall (volume_ok T) vs /\
  encodes T vs out /\ decodes T (pocs T vs) out' /\ In q out' /\ ~ In q out.
Proof.
  exists (mkTile 0 0 1 1 2 [mkParams 1 1 [(15, 15)]]), [mkVol LRCP 0 1 0 1 1; mkVol LRCP 0 1 0 1 2].
  exists [(0, 0, 0, 0)], [(0, 0, 0, 0); (1, 0, 0, 0)], (1, 0, 0, 0).
  split; [repeat constructor; cbn; lia |]. split; [repeat constructor; cbn; lia |].
  split; [apply (run_encodes 30); vm_compute; reflexivity |]. split; [apply (run_decodes 30); vm_compute; reflexivity |].
  cbn [In]. split; [tauto |]. intuition discriminate.
Qed.

(** Overlapping progressions: the encoder writes the common packets twice, the
    decoder expects them once. *)
Theorem c27_poc_overlap_refuted : exists T vs out out', Forall (fun v => v_lay1 v <= t_layers T) vs /\ Forall (volume_ok T) vs /\
  layers_descend vs /\ encodes T vs out /\ decodes T (pocs T vs) out' /\ ~ NoDup out /\ NoDup out'.
Proof.
  exists (mkTile 0 0 1 1 1 [mkParams 1 1 [(15, 15); (15, 15)]]), [mkVol LRCP 0 1 0 1 1; mkVol LRCP 0 2 0 1 1].
  exists [(0, 0, 0, 0); (0, 0, 0, 0); (0, 1, 0, 0)], [(0, 0, 0, 0); (0, 1, 0, 0)].
  split; [repeat constructor; cbn; lia |]. split; [repeat constructor; cbn; lia |].
  split; [repeat constructor; cbn; lia |].
  split; [apply (run_encodes 30); vm_compute; reflexivity |]. split; [apply (run_decodes 30); vm_compute; reflexivity |].
  split.
  - intros N. inversion N as [| ? ? N1 _]; subst. apply N1. left. reflexivity.
  - repeat constructor; cbn [In]; intuition discriminate.
Qed.

(** Two components, one subsampled by two, two resolutions: RPCL and LRCP. *)
Example c27_example :
  let T := mkTile 0 0 8 4 1 [mkParams 1 1 [(1, 1); (2, 2)]; mkParams 2 1 [(1, 1); (2, 2)]] in
  run_decoder 200 T [all_of T RPCL] = Some
    [(0, 0, 0, 0); (0, 0, 1, 0); (0, 0, 0, 1); (0, 1, 0, 0); (0, 1, 1, 0); (0, 1, 0, 1)] /\
  run_decoder 200 T [all_of T LRCP] = Some
    [(0, 0, 0, 0); (0, 0, 0, 1); (0, 0, 1, 0); (0, 1, 0, 0); (0, 1, 0, 1); (0, 1, 1, 0)] /\
  run_encoder 200 T [all_of T RPCL] = run_decoder 200 T [all_of T RPCL].
Proof. vm_compute. repeat split. Qed.

Print Assumptions c27_progressions.
Print Assumptions c27_determined.
Print Assumptions c27_exactly_once.
Print Assumptions c27_tile.
Print Assumptions c27_lrcp.
Print Assumptions c27_rlcp.
Print Assumptions c27_position_orders.
Print Assumptions c27_encoder.
Print Assumptions c27_encoder_progressions.
Print Assumptions c27_same_precincts.
Print Assumptions c27_mixed_subsampling_refuted.
Print Assumptions c27_many_resolutions_refuted.
Print Assumptions c27_wrap_refuted.
Print Assumptions c27_poc_layers_refuted.
Print Assumptions c27_poc_overlap_refuted.
