(** Proofs about tag trees: shape. *)

From Coq Require Import ZArith List Bool Arith Lia ZifyNat.
From Verif Require Import BioModel TgtModel TgtSpec.
Import ListNotations.
Local Open Scope nat_scope.

Ltac Zify.zify_post_hook ::= Z.div_mod_to_equations.

(** ** One row, one level *)

Lemma wire_row_spec : forall k p, wire_row k p = (map (fun x => p + x / 2) (seq 0 k), p + halve k).
Proof.
  assert (G : forall n k p, k <= n -> wire_row k p = (map (fun x => p + x / 2) (seq 0 k), p + halve k)).
  { induction n; intros k p H.
    - replace k with 0 by lia. cbn. f_equal. unfold halve. cbn. lia.
    - destruct k as [| [| k]].
      + cbn. f_equal. lia.
      + cbn. f_equal; [f_equal; lia | unfold halve; cbn; lia].
      + cbn [wire_row]. rewrite IHn by lia. cbn [seq map]. change (0 / 2) with 0. change (1 / 2) with 0.
        rewrite Nat.add_0_r. f_equal.
        * f_equal. f_equal. rewrite <- (seq_shift k 1), <- (seq_shift k 0), !map_map. apply map_ext. intros x.
          replace (S (S x)) with (x + 1 * 2) by lia. rewrite Nat.div_add by lia. lia.
        * unfold halve. replace (S (S k) + 1) with (k + 1 + 1 * 2) by lia. rewrite Nat.div_add by lia. lia. }
  intros. apply (G k). lia.
Qed.

Definition level_parents (w P j rem : nat) : list nat :=
  flat_map (fun y => map (fun x => P + (y / 2) * halve w + x / 2) (seq 0 w)) (seq j rem).

Lemma odd_div2 : forall j, Nat.odd j = true -> S j / 2 = S (j / 2).
Proof.
  intros j H. apply Nat.odd_spec in H. destruct H as [q ->].
  replace (S (2 * q + 1)) with ((q + 1) * 2) by lia. rewrite Nat.div_mul by lia.
  replace (2 * q + 1) with (1 + q * 2) by lia. rewrite Nat.div_add by lia. change (1 / 2) with 0. lia.
Qed.

Lemma even_div2 : forall j, Nat.odd j = false -> S j / 2 = j / 2.
Proof.
  intros j H. rewrite <- Nat.negb_even in H. apply negb_false_iff, Nat.even_spec in H. destruct H as [q ->].
  replace (S (2 * q)) with (1 + q * 2) by lia. rewrite Nat.div_add by lia.
  replace (2 * q) with (q * 2) by lia. rewrite Nat.div_mul by lia. reflexivity.
Qed.

Lemma odd_S : forall j, Nat.odd (S j) = negb (Nat.odd j).
Proof. intros. rewrite Nat.odd_succ, <- Nat.negb_odd. reflexivity. Qed.

Lemma wire_rows_spec : forall rem j w h P p p0, rem + j = h -> 0 < rem ->
  p = P + (j / 2) * halve w -> (Nat.odd j = false -> p0 = p) ->
  wire_rows rem j w h p p0 =
    (level_parents w P j rem, (P + halve h * halve w, P + halve h * halve w)).
Proof.
  induction rem; intros j w h P p p0 Hh Hr Hp Hp0; [lia |].
  cbn [wire_rows]. rewrite wire_row_spec. cbn iota beta.
  unfold level_parents. cbn [seq flat_map]. fold (level_parents w P (S j) rem).
  assert (Hrow : map (fun x => p + x / 2) (seq 0 w) = map (fun x => P + (j / 2) * halve w + x / 2) (seq 0 w)).
  { apply map_ext. intros. lia. }
  rewrite Hrow. destruct (Nat.eq_dec rem 0) as [-> | Hne].
  - replace (j =? h - 1) with true by (symmetry; apply Nat.eqb_eq; lia). rewrite orb_true_r.
    cbn [wire_rows level_parents seq flat_map]. subst p.
    assert (P + j / 2 * halve w + halve w = P + halve h * halve w).
    { replace (halve h) with (S (j / 2)); [lia |]. unfold halve. replace (h + 1) with (j + 1 * 2) by lia.
      rewrite Nat.div_add by lia. lia. }
    rewrite H. reflexivity.
  - replace (j =? h - 1) with false by (symmetry; apply Nat.eqb_neq; lia). rewrite orb_false_r.
    destruct (Nat.odd j) eqn:Eo.
    + rewrite (IHrem (S j) w h P); [reflexivity | lia | lia | | ].
      * rewrite odd_div2 by assumption. lia.
      * intros _. reflexivity.
    + specialize (Hp0 eq_refl). subst p0.
      rewrite (IHrem (S j) w h P); [reflexivity | lia | lia | | ].
      * rewrite even_div2 by assumption. lia.
      * rewrite odd_S, Eo. discriminate.
Qed.

Lemma level_parents_length : forall w P rem j, List.length (level_parents w P j rem) = rem * w.
Proof.
  unfold level_parents. induction rem; intros j; [reflexivity |]. cbn [seq flat_map].
  rewrite app_length, map_length, seq_length, IHrem. lia.
Qed.

Lemma level_parents_nth : forall w P rem j x y, x < w -> y < rem ->
  nth_error (level_parents w P j rem) (y * w + x) = Some (P + ((j + y) / 2) * halve w + x / 2).
Proof.
  unfold level_parents. induction rem; intros j x y Hx Hy; [lia |]. cbn [seq flat_map].
  destruct y as [| y].
  - cbn [Nat.mul Nat.add]. rewrite nth_error_app1 by (rewrite map_length, seq_length; assumption).
    rewrite Nat.add_0_r.
    erewrite map_nth_error; [reflexivity |].
    rewrite (nth_error_nth' _ 0) by (rewrite seq_length; assumption). rewrite seq_nth by assumption. reflexivity.
  - rewrite nth_error_app2 by (rewrite map_length, seq_length; lia). rewrite map_length, seq_length.
    replace (S y * w + x - w) with (y * w + x) by lia. rewrite IHrem by lia.
    replace (S j + y) with (j + S y) by lia. reflexivity.
Qed.

(** ** All levels *)

Lemma levels_cons : forall f w h ls, levels f w h = Some ls -> exists r, ls = (w, h) :: r.
Proof.
  destruct f; intros w h ls H; [discriminate |]. cbn [levels] in H.
  destruct (2147483647 <? _)%Z; [discriminate |]. destruct (w * h <=? 1).
  - injection H as <-. eauto.
  - destruct (levels f _ _); [| discriminate]. injection H as <-. cbn. eauto.
Qed.

(** The wiring of a list of levels whose first level starts at node [b]. *)
Lemma wire_levels_spec : forall f w h ls b, levels f w h = Some ls -> 0 < w -> 0 < h ->
  let l := wire_levels ls (b + w * h) (b + w * h) in
  (forall i x y, S i < List.length ls -> x < fst (grid i w h) -> y < snd (grid i w h) ->
     nth_error l (node_at i w h x y) = Some (b + node_at (S i) w h (x / 2) (y / 2))) /\
  List.length l = base (List.length ls - 1) w h /\
  grid (List.length ls - 1) w h = (1, 1) /\
  (forall i, S i < List.length ls -> grid i w h <> (1, 1)) /\
  list_sum (map (fun d => fst d * snd d) ls) = base (List.length ls) w h /\
  List.length ls <= f.
Proof.
  induction f; intros w h ls b H Hw Hh l; [discriminate |]. cbn [levels] in H.
  destruct (2147483647 <? _)%Z; [discriminate |]. destruct (Nat.leb_spec (w * h) 1) as [E | E].
  - injection H as <-. subst l. assert (w = 1 /\ h = 1) as [-> ->] by (destruct w as [| [|]], h as [| [|]]; cbn in *; lia).
    repeat split; try (cbn; lia); intros; cbn in *; lia.
  - destruct (levels f ((w + 1) / 2) ((h + 1) / 2)) as [r |] eqn:El; [| discriminate].
    cbn [option_map] in H. injection H as <-. change ((w + 1) / 2) with (halve w) in El. change ((h + 1) / 2) with (halve h) in El.
    assert (Hw' : 0 < halve w) by (unfold halve; lia). assert (Hh' : 0 < halve h) by (unfold halve; lia).
    pose proof (levels_cons _ _ _ _ El) as [r' ->].
    assert (Hl : l = level_parents w (b + w * h) 0 h ++
      wire_levels ((halve w, halve h) :: r') (b + w * h + halve w * halve h) (b + w * h + halve w * halve h)).
    { subst l. cbn [wire_levels]. rewrite (wire_rows_spec h 0 w h (b + w * h)); try lia.
      rewrite (Nat.mul_comm (halve h)). reflexivity. }
    specialize (IHf _ _ _ (b + w * h) El Hw' Hh'). cbn zeta in IHf.
    set (l' := wire_levels _ (b + w * h + _) _) in *.
    destruct IHf as (I1 & I2 & I3 & I4 & I5 & I6). rewrite Hl. cbn [List.length] in *.
    repeat split.
    + intros i x y Hi Hx Hy. destruct i as [| i].
      * cbn [grid fst snd] in Hx, Hy. unfold node_at. cbn [base grid fst].
        rewrite nth_error_app1 by (rewrite level_parents_length; nia).
        cbn [Nat.add]. rewrite level_parents_nth by assumption. f_equal.
        rewrite (Nat.add_0_l y). fold (halve w). fold (halve h). lia.
      * cbn [grid] in Hx, Hy. unfold node_at. cbn [base grid fst].
        rewrite nth_error_app2 by (rewrite level_parents_length; lia). rewrite level_parents_length.
        replace (w * h + base i (halve w) (halve h) + y * fst (grid i (halve w) (halve h)) + x - h * w)
          with (node_at i (halve w) (halve h) x y) by (unfold node_at; lia).
        rewrite I1 by (assumption || lia). f_equal. unfold node_at. cbn [base grid]. lia.
    + rewrite app_length, level_parents_length, I2. replace (S (S (List.length r')) - 1) with (S (List.length r')) by lia.
      replace (S (List.length r') - 1) with (List.length r') by lia. cbn [base]. lia.
    + replace (S (S (List.length r')) - 1) with (S (List.length r')) by lia.
      replace (S (List.length r') - 1) with (List.length r') in I3 by lia. cbn [grid]. exact I3.
    + intros i Hi. destruct i as [| i]; cbn [grid].
      * intros X. injection X as -> ->. cbn in E. lia.
      * apply I4. lia.
    + cbn [map list_sum fold_right fst snd]. change (fold_right Nat.add 0) with list_sum.
      cbn [map] in I5. cbn [base]. cbn [list_sum fold_right fst snd] in I5. change (fold_right Nat.add 0) with list_sum in I5.
      cbn [base] in I5. lia.
    + lia.
Qed.

Lemma levels_empty : forall f w h ls, levels f w h = Some ls -> w * h = 0 -> ls = [(w, h)].
Proof.
  destruct f; intros w h ls H E; [discriminate |]. cbn [levels] in H. destruct (2147483647 <? _)%Z; [discriminate |].
  rewrite E in H. cbn in H. congruence.
Qed.

(** What a created tree looks like. *)
Lemma create_spec : forall w h t, tgt_create w h = Some t ->
  0 < w /\ 0 < h /\ t_store t = blank /\
  exists n, 0 < n <= 31 /\
  (forall i x y, S i < n -> x < fst (grid i w h) -> y < snd (grid i w h) ->
     parent t (node_at i w h x y) = Some (node_at (S i) w h (x / 2) (y / 2))) /\
  List.length (t_parents t) = base (n - 1) w h /\ grid (n - 1) w h = (1, 1) /\
  (forall i, S i < n -> grid i w h <> (1, 1)) /\ t_nodes t = base n w h.
Proof.
  intros w h t H. unfold tgt_create in H. destruct (levels 31 w h) as [ls |] eqn:El; [| discriminate].
  destruct (Nat.eq_dec (w * h) 0) as [E | E].
  { rewrite (levels_empty _ _ _ _ El E) in H. cbn [map list_sum fold_right fst snd] in H. rewrite E in H. discriminate. }
  assert (Hw : 0 < w) by nia. assert (Hh : 0 < h) by nia.
  destruct (wire_levels_spec _ _ _ _ 0 El Hw Hh) as (I1 & I2 & I3 & I4 & I5 & I6). cbn [Nat.add] in *.
  destruct (list_sum _ =? 0); [discriminate |]. injection H as <-.
  split; [exact Hw |]. split; [exact Hh |]. split; [reflexivity |].
  exists (List.length ls). cbn [t_parents t_nodes]. unfold parent. cbn [t_parents].
  pose proof (levels_cons _ _ _ _ El) as [r Hr].
  split; [subst ls; cbn [List.length] in *; lia |]. repeat split; assumption.
Qed.

(** ** Every node has its place *)

Lemma grid_S : forall i w h, grid (S i) w h = (halve (fst (grid i w h)), halve (snd (grid i w h))).
Proof. induction i; intros; [reflexivity |]. cbn [grid] in *. apply IHi. Qed.

Lemma base_S : forall i w h, base (S i) w h = base i w h + fst (grid i w h) * snd (grid i w h).
Proof.
  induction i; intros; [cbn; lia |].
  change (base (S (S i)) w h) with (w * h + base (S i) (halve w) (halve h)).
  rewrite IHi. cbn [base grid]. lia.
Qed.

Lemma grid_pos : forall i w h, 0 < w -> 0 < h -> 0 < fst (grid i w h) /\ 0 < snd (grid i w h).
Proof. induction i; intros; [cbn; auto |]. cbn [grid]. apply IHi; unfold halve; lia. Qed.

Lemma node_in_level : forall i w h n, base i w h <= n < base (S i) w h ->
  exists x y, x < fst (grid i w h) /\ y < snd (grid i w h) /\ n = node_at i w h x y.
Proof.
  intros i w h n H. rewrite base_S in H. set (g := fst (grid i w h)) in *.
  assert (0 < g) by nia.
  exists ((n - base i w h) mod g), ((n - base i w h) / g).
  split; [apply Nat.mod_upper_bound; lia |]. split.
  - apply Nat.div_lt_upper_bound; lia.
  - unfold node_at. fold g. pose proof (Nat.div_mod (n - base i w h) g). lia.
Qed.

Lemma node_level_range : forall i w h x y, x < fst (grid i w h) -> y < snd (grid i w h) ->
  base i w h <= node_at i w h x y < base (S i) w h.
Proof. intros. rewrite base_S. unfold node_at. nia. Qed.

Lemma base_mono : forall i j w h, i <= j -> base i w h <= base j w h.
Proof. intros i j w h H. induction H; [lia |]. rewrite base_S. lia. Qed.

Lemma find_level : forall k w h n, n < base k w h -> exists i, i < k /\ base i w h <= n < base (S i) w h.
Proof.
  induction k; intros w h n H; [cbn in H; lia |].
  destruct (Nat.lt_ge_cases n (base k w h)) as [L | L].
  - destruct (IHk _ _ _ L) as (i & Hi & Hb). exists i. split; [lia | exact Hb].
  - exists k. lia.
Qed.

(** The shape facts used by the coding proofs. *)
Definition shaped (par : nat -> option nat) (leaves n : nat) : Prop :=
  forall i p, par i = Some p -> i < p < n /\ leaves <= p.

Lemma parent_level : forall w h t, tgt_create w h = Some t -> exists n, 0 < n <= 31 /\ t_nodes t = base n w h /\
  forall i p, parent t i = Some p -> exists k, S k < n /\ base k w h <= i < base (S k) w h /\
    base (S k) w h <= p < base (S (S k)) w h.
Proof.
  intros w h t H. destruct (create_spec _ _ _ H) as (Hw & Hh & _ & n & Hn & H1 & H2 & H3 & H4 & H5).
  exists n. split; [exact Hn |]. split; [exact H5 |]. intros i p Hp.
  assert (Hi : i < base (n - 1) w h).
  { rewrite <- H2. apply nth_error_Some. unfold parent in Hp. rewrite Hp. discriminate. }
  destruct (find_level _ _ _ _ Hi) as (k & Hk & Hb). exists k. split; [lia |]. split; [exact Hb |].
  destruct (node_in_level _ _ _ _ Hb) as (x & y & Hx & Hy & ->).
  rewrite H1 in Hp by (assumption || lia). injection Hp as <-.
  apply node_level_range; rewrite grid_S; unfold halve.
  - change (x / 2 < (fst (grid k w h) + 1) / 2). lia.
  - change (y / 2 < (snd (grid k w h) + 1) / 2). lia.
Qed.

Lemma create_shaped : forall w h t, tgt_create w h = Some t -> shaped (parent t) (w * h) (t_nodes t).
Proof.
  intros w h t H i p Hp. destruct (parent_level _ _ _ H) as (n & Hn & -> & Hl).
  destruct (Hl _ _ Hp) as (k & Hk & Hi & Hpb).
  pose proof (base_mono (S (S k)) n w h ltac:(lia)). pose proof (base_mono 1 (S k) w h ltac:(lia)).
  assert (base 1 w h = w * h) by (cbn; lia). lia.
Qed.

(** The stack of 31 nodes suffices: a path has at most 31 nodes, so at most 30
    are pushed. *)
Lemma ancestors_levels : forall w h t, tgt_create w h = Some t ->
  forall fuel i, List.length (ancestors fuel (parent t) i) <= 31.
Proof.
  intros w h t H. destruct (parent_level _ _ _ H) as (n & Hn & _ & Hl).
  assert (G : forall fuel k i, k < n -> base k w h <= i < base (S k) w h ->
     List.length (ancestors fuel (parent t) i) <= n - k).
  { induction fuel; intros k i Hk Hi; [cbn; lia |]. cbn [ancestors List.length].
    destruct (parent t i) as [p |] eqn:Ep; [| cbn; lia].
    destruct (Hl _ _ Ep) as (k' & Hk' & Hi' & Hp).
    assert (k' = k).
    { destruct (Nat.lt_trichotomy k k') as [L | [L | L]]; [| auto |];
        [pose proof (base_mono (S k) k' w h ltac:(lia)) | pose proof (base_mono (S k') k w h ltac:(lia))]; lia. }
    subst k'. specialize (IHfuel (S k) p Hk' Hp). lia. }
  intros fuel i. destruct fuel; [cbn; lia |]. cbn [ancestors List.length].
  destruct (parent t i) as [p |] eqn:Ep; [| cbn; lia].
  destruct (Hl _ _ Ep) as (k & Hk & Hi & Hp). pose proof (G fuel (S k) p Hk Hp). lia.
Qed.
