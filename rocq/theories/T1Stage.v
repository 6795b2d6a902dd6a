(** How the coding passes of T1Spec change a coefficient's part of the state. *)

From Coq Require Import ZArith List Bool Lia.
From Verif Require Import Ints Mem MqModel T1Luts T1Model T1Spec T1Bits T1Rel T1Enc.
Import ListNotations.
Local Open Scope Z_scope.

(** Nothing changed at [(x, y)]. *)
Definition same (s s' : state) (x y : Z) : Prop :=
  significant s' x y = significant s x y /\ visited s' x y = visited s x y /\ level s' x y = level s x y.

Lemma same_refl : forall s x y, same s s x y. Proof. unfold same. auto. Qed.
Lemma same_trans : forall s s' s'' x y, same s s' x y -> same s' s'' x y -> same s s'' x y.
Proof. unfold same. intros s s' s'' x y (A & B & C) (D & E & F). repeat split; congruence. Qed.

Lemma significant_other : forall s x y x' y', x' <> x \/ y' <> y -> same s (set_significant s x y) x' y'.
Proof. intros. unfold same. cbn [set_significant significant visited level]. rewrite set_other by assumption. auto. Qed.
Lemma refined_other : forall s x y x' y', same s (set_refined s x y) x' y'.
Proof. intros. unfold same. auto. Qed.
Lemma visited_other : forall b s x y x' y', x' <> x \/ y' <> y -> same s (set_visited b s x y) x' y'.
Proof. intros. unfold same. cbn [set_visited significant visited level]. rewrite set_other by assumption. auto. Qed.
Lemma level_other : forall p s x y x' y', x' <> x \/ y' <> y -> same s (set_level p s x y) x' y'.
Proof. intros. unfold same. cbn [set_level significant visited level]. rewrite set_other by assumption. auto. Qed.

Lemma code_sign_other : forall raw B s x y x' y', x' <> x \/ y' <> y -> same s (fst (code_sign raw B x y s)) x' y'.
Proof. intros. unfold code_sign. destruct (sign_context B s x y). apply significant_other. assumption. Qed.
Lemma code_zero_other : forall raw B p s x y x' y', x' <> x \/ y' <> y -> same s (fst (code_zero raw B p x y s)) x' y'.
Proof.
  intros raw B p s x y x' y' H. unfold code_zero. destruct (bit_at B p x y =? 1); cbn [fst].
  - pose proof (code_sign_other raw B s x y x' y' H) as S. destruct (code_sign raw B x y s) as [s1 o]. cbn [fst] in *.
    eapply same_trans; [exact S | apply level_other; exact H].
  - apply level_other. exact H.
Qed.
Lemma sig_other : forall raw B p s x y x' y', x' <> x \/ y' <> y -> same s (fst (significance_step raw B p x y s)) x' y'.
Proof.
  intros raw B p s x y x' y' H. unfold significance_step. destruct (_ && _ && _); [| apply same_refl].
  pose proof (code_zero_other raw B p s x y x' y' H) as S. destruct (code_zero raw B p x y s) as [s1 o]. cbn [fst] in *.
  eapply same_trans; [exact S | apply visited_other; exact H].
Qed.
Lemma ref_other : forall B p s x y x' y', x' <> x \/ y' <> y -> same s (fst (refinement_step B p x y s)) x' y'.
Proof.
  intros B p s x y x' y' H. unfold refinement_step. destruct (_ && _); [| apply same_refl]. cbn [fst].
  eapply same_trans; [apply refined_other | apply level_other; exact H].
Qed.
Lemma cln_other : forall B p s x y x' y', x' <> x \/ y' <> y -> same s (fst (cleanup_step B p x y s)) x' y'.
Proof.
  intros B p s x y x' y' H. unfold cleanup_step. destruct (_ && _); [apply code_zero_other; exact H | apply same_refl].
Qed.

Lemma fold_other : forall (g : state -> Z -> state) x x' y' ys, (forall s y, x' <> x \/ y' <> y -> same s (g s y) x' y') ->
  x' <> x \/ ~ In y' ys -> forall s, same s (fold_left g ys s) x' y'.
Proof.
  intros g x x' y' ys Hg. induction ys as [| y ys IH]; intros H s; cbn [fold_left]; [apply same_refl |].
  eapply same_trans; [apply Hg | apply IH].
  - destruct H as [H | H]; [left; exact H | right; intros ->; apply H; left; reflexivity].
  - destruct H as [H | H]; [left; exact H | right; intros I; apply H; right; exact I].
Qed.

Lemma steps_other : forall (f : Z -> step) x x' y' ys, (forall s y, x' <> x \/ y' <> y -> same s (fst (f y s)) x' y') ->
  x' <> x \/ ~ In y' ys -> forall s, same s (fst (steps (map f ys) s)) x' y'.
Proof.
  intros f x x' y' ys Hf. induction ys as [| y ys IH]; intros H s; cbn [map steps]; [apply same_refl |].
  assert (H1 : x' <> x \/ y' <> y) by (destruct H as [H | H]; [left; exact H | right; intros ->; apply H; left; reflexivity]).
  assert (H2 : x' <> x \/ ~ In y' ys) by (destruct H as [H | H]; [left; exact H | right; intros I; apply H; right; exact I]).
  pose proof (Hf s y H1) as S1. destruct (f y s) as [s1 o1]. pose proof (IH H2 s1) as S2. destruct (steps (map f ys) s1) as [s2 o2].
  cbn [fst] in *. eapply same_trans; eassumption.
Qed.

Lemma firstn_in : forall {A} n (l : list A) a, In a (firstn n l) -> In a l.
Proof. intros A n l a I. rewrite <- (firstn_skipn n l). apply in_or_app. left. exact I. Qed.
Lemma skipn_in : forall {A} n (l : list A) a, In a (skipn n l) -> In a l.
Proof. intros A n l a I. rewrite <- (firstn_skipn n l). apply in_or_app. right. exact I. Qed.

Lemma column_other : forall B p x ys s x' y', x' <> x \/ ~ In y' ys -> same s (fst (cleanup_column B p x ys s)) x' y'.
Proof.
  intros B p x ys s x' y' H. unfold cleanup_column.
  assert (Hfin : forall s, same s (fold_left (fun s y => set_visited false s x y) ys s) x' y')
    by (intros; apply (fold_other _ x); [intros; apply visited_other; assumption | exact H]).
  destruct ((length ys =? 4)%nat && forallb (still B s x) ys).
  - set (n := leading_zeros B p x ys). set (s0 := fold_left (fun s y => set_level p s x y) (firstn n ys) s).
    assert (S0 : same s s0 x' y').
    { unfold s0. apply (fold_other _ x); [intros; apply level_other; assumption |]. destruct H as [H | H]; [left; exact H | right].
      intros I. apply H. eapply firstn_in. exact I. }
    destruct (skipn n ys) as [| y rest] eqn:E.
    + cbn [fst]. eapply same_trans; [exact S0 | apply Hfin].
    + assert (Iy : In y ys) by (apply (skipn_in n); rewrite E; left; reflexivity).
      assert (Ir : forall a, In a rest -> In a ys) by (intros a I; apply (skipn_in n); rewrite E; right; exact I).
      assert (H1 : x' <> x \/ y' <> y) by (destruct H as [H | H]; [left; exact H | right; intros ->; exact (H Iy)]).
      assert (H2 : x' <> x \/ ~ In y' rest) by (destruct H as [H | H]; [left; exact H | right; intros I; apply H, Ir, I]).
      pose proof (code_sign_other false B s0 x y x' y' H1) as S1. destruct (code_sign false B x y s0) as [s1 o1].
      pose proof (steps_other (cleanup_step B p x) x x' y' rest ltac:(intros; apply cln_other; assumption) H2 (set_level p s1 x y)) as S2.
      destruct (steps _ (set_level p s1 x y)) as [s2 o2]. cbn [fst] in *.
      eapply same_trans; [exact S0 |]. eapply same_trans; [exact S1 |]. eapply same_trans; [apply level_other; exact H1 |].
      eapply same_trans; [exact S2 | apply Hfin].
  - pose proof (steps_other (cleanup_step B p x) x x' y' ys ltac:(intros; apply cln_other; assumption) H s) as S2.
    destruct (steps _ s) as [s2 o2]. cbn [fst] in *. eapply same_trans; [exact S2 | apply Hfin].
Qed.

(** ** Stages of a plane *)

Definition consistent (B : block) (s : state) (x y : Z) : Prop :=
  significant s x y = negb (Z.shiftr (magnitude B x y) (level s x y) =? 0).
Definition before_sig (B : block) (p : Z) (s : state) (x y : Z) : Prop :=
  consistent B s x y /\ visited s x y = false /\ level s x y = p + 1.
Definition before_ref (B : block) (p : Z) (s : state) (x y : Z) : Prop :=
  consistent B s x y /\ level s x y = if visited s x y then p else p + 1.
Definition before_cln (B : block) (p : Z) (s : state) (x y : Z) : Prop :=
  consistent B s x y /\ level s x y = if visited s x y || significant s x y then p else p + 1.
Definition after_cln (B : block) (p : Z) (s : state) (x y : Z) : Prop :=
  consistent B s x y /\ visited s x y = false /\ level s x y = p.

Definition local (P : state -> Z -> Z -> Prop) : Prop := forall s s' x y, same s s' x y -> P s x y -> P s' x y.
Lemma local_sig : forall B p, local (before_sig B p).
Proof. intros B p s s' x y (E1 & E2 & E3). unfold before_sig, consistent. rewrite E1, E2, E3. auto. Qed.
Lemma local_ref : forall B p, local (before_ref B p).
Proof. intros B p s s' x y (E1 & E2 & E3). unfold before_ref, consistent. rewrite E1, E2, E3. auto. Qed.
Lemma local_cln : forall B p, local (before_cln B p).
Proof. intros B p s s' x y (E1 & E2 & E3). unfold before_cln, consistent. rewrite E1, E2, E3. auto. Qed.
Lemma local_after : forall B p, local (after_cln B p).
Proof. intros B p s s' x y (E1 & E2 & E3). unfold after_cln, consistent. rewrite E1, E2, E3. auto. Qed.

Lemma shiftr_step : forall m p, 0 <= p -> Z.shiftr m p = 2 * Z.shiftr m (p + 1) + (if Z.testbit m p then 1 else 0).
Proof.
  intros m p Hp. rewrite <- Z.shiftr_shiftr by lia. rewrite <- Z.div2_spec.
  replace (if Z.testbit m p then 1 else 0) with (Z.b2z (Z.odd (Z.shiftr m p))).
  - apply Z.div2_odd.
  - rewrite <- Z.bit0_odd, Z.shiftr_spec by lia. rewrite Z.add_0_l. destruct (Z.testbit m p); reflexivity.
Qed.

Lemma shiftr_bit : forall B p x y, 0 <= p -> Z.shiftr (magnitude B x y) (p + 1) = 0 -> Z.shiftr (magnitude B x y) p = bit_at B p x y.
Proof. intros B p x y Hp E. rewrite shiftr_step, E by exact Hp. reflexivity. Qed.

Lemma code_zero_here : forall raw B p s x y, 0 <= p -> consistent B s x y -> significant s x y = false -> level s x y = p + 1 ->
  let s' := fst (code_zero raw B p x y s) in
  consistent B s' x y /\ level s' x y = p /\ visited s' x y = visited s x y.
Proof.
  intros raw B p s x y Hp C Hs Hl. cbv zeta. unfold consistent in *. rewrite Hs, Hl in C. symmetry in C. apply negb_false_iff, Z.eqb_eq in C.
  apply shiftr_bit in C; [| exact Hp]. unfold code_zero.
  destruct (bit_cases B p x y) as [E | E]; rewrite E in *; cbn [Z.eqb Pos.eqb fst].
  - cbn [set_level significant level visited]. rewrite set_same, C, Hs. auto.
  - unfold code_sign. destruct (sign_context B s x y). cbn [fst set_level set_significant significant level visited]. rewrite !set_same, C. auto.
Qed.

Lemma sig_stage : forall raw B p s x y, 0 <= p -> before_sig B p s x y -> before_ref B p (fst (significance_step raw B p x y s)) x y.
Proof.
  intros raw B p s x y Hp (C & Hv & Hl). unfold significance_step, before_ref. rewrite Hv.
  destruct (significant s x y) eqn:Hs; cbn [negb andb fst]; [rewrite Hv; auto |]. destruct (any_seen B s x y); cbn [fst]; [| rewrite Hv; auto].
  pose proof (code_zero_here raw B p s x y Hp C Hs Hl) as H. cbv zeta in H. destruct (code_zero raw B p x y s) as [s1 o]. cbn [fst] in *.
  destruct H as (H1 & H2 & H3). cbn [set_visited visited level]. rewrite set_same. split; [exact H1 | exact H2].
Qed.

Lemma nonneg_shiftr : forall m p, 0 <= m -> 0 <= Z.shiftr m p. Proof. intros. apply Z.shiftr_nonneg. assumption. Qed.

Lemma shift_significant : forall m p, 0 <= m -> 0 <= p -> Z.shiftr m (p + 1) <> 0 -> Z.shiftr m p <> 0.
Proof.
  intros m p Hm Hp H. rewrite shiftr_step by exact Hp. pose proof (nonneg_shiftr m (p + 1) Hm). destruct (Z.testbit m p); lia.
Qed.

Lemma ref_stage : forall B p s x y, 0 <= p -> 0 <= magnitude B x y -> before_ref B p s x y -> before_cln B p (fst (refinement_step B p x y s)) x y.
Proof.
  intros B p s x y Hp Hm (C & Hl). unfold refinement_step, before_cln. destruct (significant s x y) eqn:Hs; cbn [andb].
  - destruct (visited s x y) eqn:Hv; cbn [negb fst]; [rewrite Hv, Hs; auto |].
    cbn [set_level set_refined significant visited level]. rewrite Hs, Hv. split; [| apply set_same].
    unfold consistent in *. cbn [set_level set_refined significant visited level]. rewrite set_same, Hs. rewrite Hs, Hl in C.
    symmetry in C. apply negb_true_iff, Z.eqb_neq in C. symmetry. apply negb_true_iff, Z.eqb_neq. apply shift_significant; assumption.
  - cbn [fst]. rewrite Hs, orb_false_r. split; [exact C | exact Hl].
Qed.

Lemma cln_stage : forall B p s x y, 0 <= p -> before_cln B p s x y ->
  let s' := fst (cleanup_step B p x y s) in consistent B s' x y /\ level s' x y = p.
Proof.
  intros B p s x y Hp (C & Hl). cbv zeta. unfold cleanup_step. destruct (significant s x y) eqn:Hs; destruct (visited s x y) eqn:Hv; cbn [negb andb orb fst] in *; auto.
  pose proof (code_zero_here false B p s x y Hp C Hs Hl) as H. cbv zeta in H. tauto.
Qed.

(** A list of steps, each changing its own place only. *)
Lemma steps_stage : forall (f : Z -> step) x (P Q : state -> Z -> Z -> Prop) ys, local P -> local Q -> NoDup ys ->
  (forall s y x' y', x' <> x \/ y' <> y -> same s (fst (f y s)) x' y') ->
  (forall s y, In y ys -> P s x y -> Q (fst (f y s)) x y) ->
  forall s, (forall y, In y ys -> P s x y) -> forall y, In y ys -> Q (fst (steps (map f ys) s)) x y.
Proof.
  intros f x P Q ys LP LQ ND. induction ys as [| a ys IH]; intros Hf HQ s HP y I; [destruct I |].
  inversion ND as [| a' ys' N1 N2]; subst a' ys'. cbn [map steps].
  pose proof (HQ s a (or_introl eq_refl) (HP a (or_introl eq_refl))) as Qa. pose proof (Hf s a) as Fa. destruct (f a s) as [s1 o1]. cbn [fst] in *.
  assert (HP1 : forall y, In y ys -> P s1 x y).
  { intros b Ib. apply (LP s); [| apply HP; right; exact Ib]. apply Fa. right. intros ->. exact (N1 Ib). }
  pose proof (IH N2 Hf ltac:(intros; apply HQ; [right |]; assumption) s1 HP1) as IHs.
  pose proof (fun x' y' Hf' H => steps_other f x x' y' ys Hf' H s1) as Fr.
  destruct (steps (map f ys) s1) as [s2 o2]. cbn [fst] in *.
  destruct I as [<- | I]; [| apply IHs, I]. apply (LQ s1); [| exact Qa]. apply Fr; [intros; apply Hf; assumption | right; exact N1].
Qed.

Lemma column_stage : forall B p x k s, 0 <= p ->
  (forall y, In y (rows B k) -> before_cln B p s x y) ->
  forall y, In y (rows B k) -> after_cln B p (fst (cleanup_column B p x (rows B k) s)) x y.
Proof.
  intros B p x k s Hp HA.
  assert (ND : NoDup (rows B k)).
  { unfold rows. apply FinFun.Injective_map_NoDup; [intros a b E; lia | apply nodup_upto]. }
  set (Q := fun s x y => consistent B s x y /\ level s x y = p).
  assert (LQ : local Q).
  { intros s1 s2 x' y' (E1 & E2 & E3) [H1 H2]. unfold Q, consistent in *. rewrite E1, E3. auto. }
  assert (Fin : forall s1, (forall y, In y (rows B k) -> Q s1 x y) ->
    forall y, In y (rows B k) -> after_cln B p (fold_left (fun s y => set_visited false s x y) (rows B k) s1) x y).
  { intros s1 H y I. pose proof (unvisit x k (upto (Z.min 4 (height B - 4 * k))) s1) as U. cbv zeta in U.
    fold (rows B k) in U. destruct U as (E1 & E2 & E3 & E4). destruct (H y I) as [H1 H2].
    unfold after_cln, consistent. rewrite E1, E3, E4. split; [exact H1 |]. split; [| exact H2].
    unfold unmark. rewrite Z.eqb_refl. unfold rows in I. apply in_map_iff in I. destruct I as (r & <- & I).
    replace (existsb _ _) with true; [reflexivity |]. symmetry. apply existsb_exists. exists r. split; [exact I | apply Z.eqb_refl]. }
  unfold cleanup_column. destruct ((length (rows B k) =? 4)%nat && forallb (still B s x) (rows B k)) eqn:St.
  - apply andb_true_iff in St. destruct St as [_ St]. rewrite forallb_forall in St.
    set (ys := rows B k) in *. set (n := leading_zeros B p x ys).
    set (s0 := fold_left (fun s y => set_level p s x y) (firstn n ys) s).
    assert (ND' : NoDup (firstn n ys ++ skipn n ys)) by (rewrite firstn_skipn; exact ND).
    assert (Z0 : forall y, In y (firstn n ys) -> bit_at B p x y = 0).
    { unfold n. clear. induction ys as [| a ys IH]; intros y I; cbn [leading_zeros] in I; [destruct I |].
      destruct (bit_cases B p x a) as [E | E]; rewrite E in I; cbn [Z.eqb Pos.eqb firstn] in I; [| destruct I].
      destruct I as [<- | I]; [exact E | apply IH, I]. }
    assert (Sz : forall y, In y ys -> significant s x y = false /\ visited s x y = false).
    { intros y I. specialize (St y I). unfold still in St. rewrite !andb_true_iff, !negb_true_iff in St. tauto. }
    assert (Q0 : forall y, In y (firstn n ys) -> Q s0 x y).
    { intros y I. pose proof (levels_same p x (firstn n ys) s) as L. cbv zeta in L. fold s0 in L. destruct L as (E1 & E2 & E3).
      assert (Lv : level s0 x y = p).
      { unfold s0. clear - I. revert s. induction (firstn n ys) as [| a l IH]; intros s; [destruct I |]. cbn [fold_left].
        destruct (in_dec Z.eq_dec y l) as [J | J]; [apply IH, J |]. destruct I as [-> | I]; [| contradiction].
        pose proof (fold_other (fun s y => set_level p s x y) x x y l ltac:(intros; apply level_other; assumption) (or_intror J) (set_level p s x y)) as (_ & _ & E).
        rewrite E. cbn [set_level level]. apply set_same. }
      split; [| exact Lv]. unfold consistent. rewrite Lv, E1. pose proof (firstn_in _ _ _ I) as I'. destruct (Sz y I') as [S1 S2]. rewrite S1.
      destruct (HA y I') as (C & Hl). rewrite S1, S2 in Hl. cbn [orb] in Hl. unfold consistent in C. rewrite S1, Hl in C. symmetry in C.
      apply negb_false_iff, Z.eqb_eq in C. rewrite (shiftr_bit B p x y Hp C), (Z0 y I). reflexivity. }
    assert (Later : forall y, In y (skipn n ys) -> same s s0 x y).
    { intros y I. apply (fold_other _ x); [intros; apply level_other; assumption | right]. intros J.
      clear - ND' I J. induction (firstn n ys) as [| a l IH]; [destruct J |]. cbn [app] in ND'. inversion ND' as [| a' l' N1 N2]; subst.
      destruct J as [-> | J]; [apply N1, in_or_app; right; exact I | apply IH; assumption]. }
    destruct (skipn n ys) as [| y0 rest] eqn:E.
    + cbn [fst]. apply Fin. intros y I. apply Q0. rewrite <- (firstn_skipn n ys), E, app_nil_r in I. exact I.
    + assert (Iy : In y0 ys) by (apply (skipn_in n); rewrite E; left; reflexivity).
      assert (B1 : bit_at B p x y0 = 1).
      { clear - E. unfold n in E. clear n. induction ys as [| a ys IH]; cbn [leading_zeros] in E; [discriminate |].
        destruct (bit_cases B p x a) as [C | C]; rewrite C in E; cbn [Z.eqb Pos.eqb skipn] in E; [apply IH, E | congruence]. }
      assert (N0 : ~ In y0 (firstn n ys)).
      { intros J. clear - ND' J. induction (firstn n ys) as [| a l IH]; [destruct J |]. cbn [app] in ND'. inversion ND' as [| a' l' N1 N2]; subst.
        destruct J as [-> | J]; [apply N1, in_or_app; right; left; reflexivity | apply IH; assumption]. }
      assert (N1 : NoDup (y0 :: rest)) by (clear - ND'; induction (firstn n ys); [exact ND' | inversion ND'; auto]).
      inversion N1 as [| a' l' N2 N3]; subst a' l'.
      pose proof (fun x' y' H => code_sign_other false B s0 x y0 x' y' H) as Oth.
      assert (Cs : significant (fst (code_sign false B x y0 s0)) x y0 = true) by (unfold code_sign; destruct (sign_context B s0 x y0); cbn [fst set_significant significant]; apply set_same).
      destruct (code_sign false B x y0 s0) as [s1 o1]. cbn [fst] in *.
      set (s1' := set_level p s1 x y0).
      assert (Qy : Q s1' x y0).
      { unfold Q, consistent, s1'. cbn [set_level level significant]. rewrite set_same. split; [| reflexivity]. rewrite Cs.
        destruct (Sz y0 Iy) as [S1 S2]. destruct (HA y0 Iy) as (C & Hl). rewrite S1, S2 in Hl. cbn [orb] in Hl. unfold consistent in C. rewrite S1, Hl in C. symmetry in C.
        apply negb_false_iff, Z.eqb_eq in C. rewrite (shiftr_bit B p x y0 Hp C), B1. reflexivity. }
      assert (S1' : forall y, y <> y0 -> same s0 s1' x y).
      { intros y Hne. eapply same_trans; [apply Oth; right; exact Hne | apply level_other; right; exact Hne]. }
      assert (HP : forall y, In y rest -> before_cln B p s1' x y).
      { intros y I. apply (local_cln B p s).
        - eapply same_trans; [apply Later; right; exact I | apply S1']. intros ->. exact (N2 I).
        - apply HA. apply (skipn_in n). rewrite E. right. exact I. }
      pose proof (steps_stage (cleanup_step B p x) x (before_cln B p) Q rest (local_cln B p) LQ N3
        ltac:(intros; apply cln_other; assumption) ltac:(intros; apply cln_stage; assumption) s1' HP) as Qr.
      pose proof (fun y' H => steps_other (cleanup_step B p x) x x y' rest ltac:(intros; apply cln_other; assumption) (or_intror H) s1') as Fr.
      destruct (steps _ s1') as [s2 o2]. cbn [fst] in *. apply Fin. intros y I.
      rewrite <- (firstn_skipn n ys), E in I. apply in_app_or in I. destruct I as [I | [<- | I]]; [| | apply Qr, I].
      * assert (Ny : ~ In y (y0 :: rest)).
        { intros J. clear - ND' I J. induction (firstn n ys) as [| a l IH]; [destruct I |]. cbn [app] in ND'. inversion ND' as [| a' l' M1 M2]; subst.
          destruct I as [-> | I]; [apply M1, in_or_app; right; exact J | apply IH; assumption]. }
        apply (LQ s0); [| apply Q0, I]. eapply same_trans; [apply S1' | apply Fr].
        -- intros ->. apply Ny. left. reflexivity.
        -- intros J. apply Ny. right. exact J.
      * apply (LQ s1'); [apply Fr; exact N2 | exact Qy].
  - pose proof (steps_stage (cleanup_step B p x) x (before_cln B p) Q (rows B k) (local_cln B p) LQ ND
        ltac:(intros; apply cln_other; assumption) ltac:(intros; apply cln_stage; assumption) s HA) as Qr.
    destruct (steps _ s) as [s2 o2]. cbn [fst] in *. apply Fin, Qr.
Qed.

(** ** Whole passes *)

Lemma rows_in : forall B k y, In y (rows B k) <-> 4 * k <= y < 4 * k + 4 /\ y < height B.
Proof.
  intros B k y. unfold rows. rewrite in_map_iff. split.
  - intros (r & <- & I). apply in_upto in I. lia.
  - intros H. exists (y - 4 * k). split; [lia |]. apply in_upto. lia.
Qed.
Lemma columns_in : forall B k x, In (k, x) (columns B) <-> 0 <= k < stripes B /\ 0 <= x < width B.
Proof.
  intros B k x. unfold columns. rewrite in_flat_map. fold (stripes B). split.
  - intros (k' & Ik & I). apply in_map_iff in I. destruct I as (x' & E & Ix). apply in_upto in Ik, Ix.
    assert (k' = k) by congruence. assert (x' = x) by congruence. lia.
  - intros [Hk Hx]. exists k. split; [apply in_upto; lia |]. apply (in_map (fun x => (k, x))). apply in_upto. lia.
Qed.
Lemma nodup_app : forall {A} (l m : list A), NoDup l -> NoDup m -> (forall a, In a l -> ~ In a m) -> NoDup (l ++ m).
Proof.
  intros A l m Hl Hm D. induction Hl as [| a l N1 N2 IH]; cbn [app]; [exact Hm |]. constructor.
  - intros I. apply in_app_or in I. destruct I as [I | I]; [exact (N1 I) | exact (D a (or_introl eq_refl) I)].
  - apply IH. intros b I. apply D. right. exact I.
Qed.
Lemma columns_nodup : forall B, NoDup (columns B).
Proof.
  intros B. unfold columns. pose proof (nodup_upto ((height B + 3) / 4)) as N. induction N as [| k l N1 N2 IH]; cbn [flat_map]; [constructor |].
  apply nodup_app; [apply FinFun.Injective_map_NoDup; [intros a b E; congruence | apply nodup_upto] | exact IH |].
  intros [k' x'] I J. apply in_map_iff in I. destruct I as (a & E & _). apply in_flat_map in J. destruct J as (k'' & Ik & J).
  apply in_map_iff in J. destruct J as (b & E' & _). assert (k = k'') by congruence. subst k''. exact (N1 Ik).
Qed.

Definition everywhere (B : block) (P : state -> Z -> Z -> Prop) (s : state) : Prop := forall x y, inside B x y = true -> P s x y.

(** Column by column: what a column's step does to its own coefficients. *)
Lemma columns_stage : forall B (f : Z * Z -> step) (P Q : state -> Z -> Z -> Prop), good B -> local P -> local Q ->
  (forall k x s x' y', x' <> x \/ ~ In y' (rows B k) -> same s (fst (f (k, x) s)) x' y') ->
  (forall k x s, 0 <= k < stripes B -> 0 <= x < width B -> (forall y, In y (rows B k) -> P s x y) -> forall y, In y (rows B k) -> Q (fst (f (k, x) s)) x y) ->
  forall s, everywhere B P s -> everywhere B Q (fst (steps (map f (columns B)) s)).
Proof.
  intros B f P Q G LP LQ Hf HQ.
  assert (K : forall l, NoDup l -> (forall k x, In (k, x) l -> 0 <= k < stripes B /\ 0 <= x < width B) ->
    forall s, (forall k x y, In (k, x) l -> In y (rows B k) -> P s x y) ->
    (forall k x y, In (k, x) l -> In y (rows B k) -> Q (fst (steps (map f l) s)) x y) /\
    (forall x y, (forall k, In (k, x) l -> ~ In y (rows B k)) -> same s (fst (steps (map f l) s)) x y)).
  { induction l as [| [k0 x0] l IH]; intros ND Hl s HP; cbn [map steps].
    - split; [intros k x y [] | intros; apply same_refl].
    - inversion ND as [| c l' N1 N2]; subst c l'.
      pose proof (Hf k0 x0 s) as F0. pose proof (HQ k0 x0 s (proj1 (Hl _ _ (or_introl eq_refl))) (proj2 (Hl _ _ (or_introl eq_refl))) (fun y I => HP k0 x0 y (or_introl eq_refl) I)) as Q0.
      destruct (f (k0, x0) s) as [s1 o1]. cbn [fst] in *.
      assert (Dis : forall k x y, In (k, x) l -> In y (rows B k) -> x <> x0 \/ ~ In y (rows B k0)).
      { intros k x y I Iy. destruct (Z.eq_dec x x0) as [-> |]; [right | left; assumption]. intros J. apply rows_in in Iy, J.
        assert (k = k0) by lia. subst k. exact (N1 I). }
      destruct (IH N2 ltac:(intros; apply Hl; right; assumption) s1) as [I1 I2].
      { intros k x y I Iy. apply (LP s); [apply F0; eapply Dis; eassumption | apply (HP k x y); [right |]; assumption]. }
      destruct (steps (map f l) s1) as [s2 o2]. cbn [fst] in *. split.
      + intros k x y [E | I] Iy; [| eapply I1; eassumption]. assert (k = k0) by congruence. assert (x = x0) by congruence. subst k x.
        apply (LQ s1); [| apply Q0, Iy]. apply I2. intros k I J. destruct (Dis k x0 y I J) as [D | D]; [congruence | exact (D Iy)].
      + intros x y H. eapply same_trans; [apply F0 | apply I2].
        * destruct (Z.eq_dec x x0) as [-> |]; [right | left; assumption]. apply H. left. reflexivity.
        * intros k I. apply H. right. exact I. }
  intros s HE x y Hin. destruct (inside_bounds B x y Hin) as [Hx Hy].
  destruct (K (columns B) (columns_nodup B) ltac:(intros k' x' I; apply columns_in, I) s) as [K1 _].
  { intros k' x' y' I Iy. apply columns_in in I. apply rows_in in Iy. apply HE, inside_true; lia. }
  assert (Ey : y = 4 * (y / 4) + y mod 4) by (apply Z.div_mod; lia). pose proof (Z.mod_pos_bound y 4 ltac:(lia)).
  apply (K1 (y / 4)); [apply columns_in; split; [| exact Hx] | apply rows_in; lia].
  apply (inside_stripe B x (y / 4) (y mod 4)); [lia |]. rewrite <- Ey. exact Hin.
Qed.

Lemma rows_nodup : forall B k, NoDup (rows B k).
Proof. intros. unfold rows. apply FinFun.Injective_map_NoDup; [intros a b E; lia | apply nodup_upto]. Qed.

Section Passes.
  Variables (B : block) (p : Z).
  Hypotheses (G : good B) (Hp : 0 <= p) (Hm : forall x y, inside B x y = true -> 0 <= magnitude B x y).

  Theorem significance_stage : forall raw s, everywhere B (before_sig B p) s -> everywhere B (before_ref B p) (fst (significance_pass raw B p s)).
  Proof.
    intros raw. apply columns_stage; [exact G | apply local_sig | apply local_ref | |]; intros; cbn [fst snd].
    - apply (steps_other _ x); [intros; apply sig_other; assumption | assumption].
    - apply (steps_stage _ x (before_sig B p)); try assumption; [apply local_sig | apply local_ref | apply rows_nodup | intros; apply sig_other; assumption |].
      intros. apply sig_stage; assumption.
  Qed.
  Theorem refinement_stage : forall s, everywhere B (before_ref B p) s -> everywhere B (before_cln B p) (fst (refinement_pass B p s)).
  Proof.
    apply columns_stage; [exact G | apply local_ref | apply local_cln | |]; intros; cbn [fst snd].
    - apply (steps_other _ x); [intros; apply ref_other; assumption | assumption].
    - apply (steps_stage _ x (before_ref B p)); try assumption; [apply local_ref | apply local_cln | apply rows_nodup | intros; apply ref_other; assumption |].
      intros. apply ref_stage; try assumption. apply Hm. match goal with H : In ?b (rows B k), _ : before_ref B p _ x ?b |- _ => apply rows_in in H end. apply inside_true; lia.
  Qed.
  Theorem cleanup_stage : forall s, everywhere B (before_cln B p) s -> everywhere B (after_cln B p) (fst (cleanup_pass B p s)).
  Proof.
    apply columns_stage; [exact G | apply local_cln | apply local_after | |]; intros; cbn [fst snd].
    - apply column_other. assumption.
    - apply column_stage; assumption.
  Qed.
End Passes.

Lemma next_plane : forall B p s, everywhere B (after_cln B (p + 1)) s -> everywhere B (before_sig B p) s.
Proof. intros B p s H x y Hin. apply H, Hin. Qed.

Lemma initial_stage : forall B p, (forall x y, inside B x y = true -> 0 <= magnitude B x y < 2 ^ (p + 1)) -> 0 <= p -> everywhere B (before_cln B p) (initial (p + 1)).
Proof.
  intros B p H Hp x y Hin. unfold before_cln, consistent, initial. cbn [significant visited level orb]. split; [| reflexivity].
  symmetry. apply negb_false_iff, Z.eqb_eq. rewrite Z.shiftr_div_pow2 by lia. apply Z.div_small, H, Hin.
Qed.
