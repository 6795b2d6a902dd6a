(** The forward loops of dwt.rs compute the closed forms of DwtSpec.v. *)

From Coq Require Import ZArith List Bool Lia.
From Verif Require Import I32 Mem DwtModel DwtSpec DwtProofs DwtLines.
Import ListNotations.
Local Open Scope Z_scope.
Ltac Zify.zify_post_hook ::= Z.div_mod_to_equations.

Ltac ieq := first [lia | reflexivity | f_equal; ieq].

Definition cas_of (even : bool) : Z := if even then 0 else 1.

Lemma sn_even : forall n, (n + 1) / 2 = nlow 0 n.
Proof. intros. unfold nlow. f_equal. lia. Qed.
Lemma sn_odd : forall n, (n + 0) / 2 = nlow 1 n.
Proof. intros. unfold nlow. f_equal. lia. Qed.

(** High-pass samples away from and at the borders. *)
Lemma fhigh_even_mid : forall n x i, 0 <= i < nlow 0 n - 1 ->
  fhigh 0 n x i = i32 (x (2 * i + 1) - half (x (2 * i)) (x (2 * (i + 1)))).
Proof.
  intros n x i Hi. unfold fhigh, clamp, highp, lowp.
  destruct (Z.eqb_spec (Z.max 0 (Z.min (i - 0) (nlow 0 n - 1))) (Z.max 0 (Z.min (i - 0 + 1) (nlow 0 n - 1)))); [lia |].
  ieq.
Qed.
Lemma fhigh_even_end : forall n x, 1 <= nlow 0 n ->
  fhigh 0 n x (nlow 0 n - 1) = i32 (x (2 * (nlow 0 n - 1) + 1) - x (2 * (nlow 0 n - 1))).
Proof.
  intros n x Hi. unfold fhigh, clamp, highp, lowp.
  match goal with |- context [?a =? ?b] => destruct (Z.eqb_spec a b); [| lia] end.
  ieq.
Qed.
Lemma fhigh_odd_first : forall n x, 1 <= nlow 1 n -> fhigh 1 n x 0 = i32 (x 0 - x 1).
Proof.
  intros n x Hi. unfold fhigh, clamp, highp, lowp.
  match goal with |- context [?a =? ?b] => destruct (Z.eqb_spec a b); [| lia] end.
  ieq.
Qed.
Lemma fhigh_odd_mid : forall n x i, 1 <= i < nlow 1 n ->
  fhigh 1 n x i = i32 (x (2 * i) - half (x (2 * i + 1)) (x (2 * (i - 1) + 1))).
Proof.
  intros n x i Hi. unfold fhigh, clamp, highp, lowp.
  match goal with |- context [?a =? ?b] => destruct (Z.eqb_spec a b); [lia |] end.
  rewrite half_comm. ieq.
Qed.
Lemma fhigh_odd_end : forall n x, 1 <= nlow 1 n ->
  fhigh 1 n x (nlow 1 n) = i32 (x (2 * nlow 1 n) - x (2 * (nlow 1 n - 1) + 1)).
Proof.
  intros n x Hi. unfold fhigh, clamp, highp, lowp.
  match goal with |- context [?a =? ?b] => destruct (Z.eqb_spec a b); [| lia] end.
  ieq.
Qed.
(** Low-pass samples, in terms of the high-pass ones [d]. *)
Lemma flow_eq : forall cas n x i a b, a = clamp (nhigh cas n) (i - 1 + cas) -> b = clamp (nhigh cas n) (i + cas) ->
  flow cas n x i = i32 (x (lowp cas i) + quarter (fhigh cas n x a) (fhigh cas n x b)).
Proof. intros. subst. reflexivity. Qed.

Lemma fdwt_h_spec : forall b n even m tmp, 1 <= n ->
  let m' := fst (fdwt_h b n even (m, tmp)) in
  (forall k, 0 <= k < n -> m' (b + k) = fline (cas_of even) n (fun i => m (b + i)) k) /\
  (forall x, ~ b <= x < b + n -> m' x = m x).
Proof.
  intros b n even m tmp Hn. unfold fdwt_h, fline. set (x := fun i => m (b + i)).
  destruct even; cbn [cas_of].
  - rewrite sn_even. set (sn := nlow 0 n). change (n - sn) with (nhigh 0 n). set (dn := nhigh 0 n).
    destruct (Z.ltb_spec 1 n) as [H1 | H1].
    2:{ replace (n =? 1) with true by (symmetry; apply Z.eqb_eq; lia). cbn [fst].
        split; reflexivity. }
    replace (n =? 1) with false by (symmetry; apply Z.eqb_neq; lia). cbn zeta.
    assert (Hsn : 1 <= sn) by (unfold sn, nlow; lia).
    assert (Hdn : 1 <= dn) by (unfold dn, nhigh, nlow; lia).
    match goal with |- context [for_to 0 (sn - 1) ?f tmp] =>
      destruct (fill_spec 0 (sn - 1) (fun i => sn + i) (fhigh 0 n x) f tmp) as [A1 A2];
      [intros; lia | | set (t1 := for_to 0 (sn - 1) f tmp) in *] end.
    { intros i t Hi B1 B2 q. rewrite fhigh_even_mid by exact Hi. unfold x. ieq. }
    rewrite Z.max_r by lia.
    match goal with |- context [quarter ((?t) sn) _] => set (t2 := t) in * end.
    assert (T : forall i, 0 <= i < dn -> t2 (sn + i) = fhigh 0 n x i).
    { intros i Hi. unfold t2. destruct (Z.eqb_spec (n mod 2) 0) as [E | E].
      - destruct (Z.eq_dec i (sn - 1)) as [-> | Hne].
        + rewrite upd_same. rewrite fhigh_even_end by exact Hsn. fold sn. unfold x. ieq.
        + rewrite upd_other by lia. apply A1. unfold dn, sn, nhigh, nlow in *. lia.
      - apply A1. unfold dn, sn, nhigh, nlow in *. lia. }
    clearbody t2. clear A1 A2 t1.
    set (m1 := upd m b _).
    match goal with |- context [for_to 1 dn ?f m1] =>
      destruct (fill_spec 1 dn (fun i => b + i) (flow 0 n x) f m1) as [A1 A2];
      [intros; lia | | set (m2 := for_to 1 dn f m1) in *] end.
    { intros i t Hi B1 B2 q. rewrite B1 by lia. unfold m1. rewrite (upd_other m b) by lia.
      rewrite !T by lia. rewrite (flow_eq 0 n x i (i - 1) i).
      - unfold x, lowp. ieq.
      - unfold clamp. change (nhigh 0 n) with dn. lia.
      - unfold clamp. change (nhigh 0 n) with dn. lia. }
    rewrite Z.max_r by lia.
    match goal with |- context [for_to 0 dn _ ?t] => set (m3 := t) in * end.
    assert (M : (forall i, 0 <= i < sn -> m3 (b + i) = flow 0 n x i) /\ (forall q, ~ b <= q < b + n -> m3 q = m q)).
    { assert (M0 : m2 b = flow 0 n x 0).
      { rewrite A2 by lia. unfold m1. rewrite upd_same. replace (t2 sn) with (fhigh 0 n x 0) by (rewrite <- T by lia; f_equal; lia).
        rewrite (flow_eq 0 n x 0 0 0) by (unfold clamp; change (nhigh 0 n) with dn; lia).
        unfold x, lowp. ieq. }
      unfold m3. destruct (Z.eqb_spec (n mod 2) 1) as [E | E].
      - split.
        + intros i Hi. destruct (Z.eq_dec i dn) as [-> | Hne].
          * rewrite upd_same. rewrite A2 by lia. unfold m1. rewrite (upd_other m b) by lia. rewrite T by lia.
            rewrite (flow_eq 0 n x dn (dn - 1) (dn - 1)) by (unfold clamp; change (nhigh 0 n) with dn; lia).
            unfold x, lowp. ieq.
          * rewrite upd_other by lia. destruct (Z.eq_dec i 0) as [-> | H0]; [rewrite Z.add_0_r; exact M0 |].
            apply A1. unfold dn, sn, nhigh, nlow in *. lia.
        + intros q Hq. rewrite upd_other by (unfold dn, nhigh in *; lia). rewrite A2 by (unfold dn, nhigh in *; lia).
          unfold m1. rewrite (upd_other m b) by lia. reflexivity.
      - split.
        + intros i Hi. destruct (Z.eq_dec i 0) as [-> | H0]; [rewrite Z.add_0_r; exact M0 |].
          apply A1. unfold dn, sn, nhigh, nlow in *. lia.
        + intros q Hq. rewrite A2 by (unfold dn, nhigh in *; lia). unfold m1. rewrite (upd_other m b) by lia. reflexivity. }
    destruct M as [M1 M2].
    destruct (copy_spec dn (fun k => b + (sn + k)) (fun k => t2 (sn + k)) m3) as [C1 C2]; [intros; lia |].
    cbn [fst]. split.
    + intros k Hk. fold sn. destruct (Z.ltb_spec k sn) as [L | L].
      * rewrite C2 by lia. apply M1. lia.
      * replace (b + k) with (b + (sn + (k - sn))) by lia. rewrite C1 by (unfold dn, nhigh; fold sn; lia). apply T.
        unfold dn, nhigh; fold sn; lia.
    + intros q Hq. rewrite C2 by (unfold dn, nhigh in *; lia). apply M2. exact Hq.
  - rewrite sn_odd. set (sn := nlow 1 n). change (n - sn) with (nhigh 1 n). set (dn := nhigh 1 n).
    destruct (Z.eqb_spec n 1) as [E1 | H1].
    { cbn [fst]. split.
      - intros k Hk. replace (b + k) with b by lia. rewrite upd_same. replace k with 0 by lia. unfold x.
        rewrite ?Z.add_0_r. reflexivity.
      - intros q Hq. apply upd_other. lia. }
    cbn zeta.
    assert (Hsn : 1 <= sn) by (unfold sn, nlow; lia).
    assert (Hdn : 1 <= dn) by (unfold dn, nhigh, nlow; lia).
    set (t0 := upd tmp sn _).
    match goal with |- context [for_to 1 sn ?f t0] =>
      destruct (fill_spec 1 sn (fun i => sn + i) (fhigh 1 n x) f t0) as [A1 A2];
      [intros; lia | | set (t1 := for_to 1 sn f t0) in *] end.
    { intros i t Hi B1 B2 q. rewrite fhigh_odd_mid by exact Hi. unfold x. ieq. }
    rewrite Z.max_r by lia.
    assert (T0 : t1 sn = fhigh 1 n x 0).
    { rewrite A2 by lia. unfold t0. rewrite upd_same. rewrite fhigh_odd_first by exact Hsn. unfold x. ieq. }
    match goal with |- context [if n mod 2 =? 1 then ?u else t1] => set (t2 := if n mod 2 =? 1 then u else t1) in * end.
    assert (T : forall i, 0 <= i < dn -> t2 (sn + i) = fhigh 1 n x i).
    { intros i Hi. unfold t2. destruct (Z.eqb_spec (n mod 2) 1) as [E | E].
      - destruct (Z.eq_dec i sn) as [-> | Hne].
        + rewrite upd_same. unfold sn at 3. rewrite fhigh_odd_end by exact Hsn. fold sn. unfold x. ieq.
        + rewrite upd_other by lia. destruct (Z.eq_dec i 0) as [-> | H0]; [rewrite Z.add_0_r; exact T0 |].
          apply A1. unfold dn, sn, nhigh, nlow in *. lia.
      - destruct (Z.eq_dec i 0) as [-> | H0]; [rewrite Z.add_0_r; exact T0 |].
        apply A1. unfold dn, sn, nhigh, nlow in *. lia. }
    clearbody t2. clear T0 A1 A2 t1 t0.
    match goal with |- context [for_to 0 (dn - 1) ?f m] =>
      destruct (fill_spec 0 (dn - 1) (fun i => b + i) (flow 1 n x) f m) as [A1 A2];
      [intros; lia | | set (m2 := for_to 0 (dn - 1) f m) in *] end.
    { intros i t Hi B1 B2 q. rewrite B1 by lia.
      replace (sn + i + 1) with (sn + (i + 1)) by lia.
      rewrite !T by lia. rewrite (flow_eq 1 n x i i (i + 1)).
      - unfold x, lowp. ieq.
      - unfold clamp. change (nhigh 1 n) with dn. lia.
      - unfold clamp. change (nhigh 1 n) with dn. lia. }
    rewrite Z.max_r by lia.
    match goal with |- context [for_to 0 dn _ ?t] => set (m3 := t) in * end.
    assert (M : (forall i, 0 <= i < sn -> m3 (b + i) = flow 1 n x i) /\ (forall q, ~ b <= q < b + n -> m3 q = m q)).
    { unfold m3. destruct (Z.eqb_spec (n mod 2) 0) as [E | E].
      - split.
        + intros i Hi. destruct (Z.eq_dec i (dn - 1)) as [-> | Hne].
          * rewrite upd_same. rewrite A2 by lia. rewrite T by lia.
            rewrite (flow_eq 1 n x (dn - 1) (dn - 1) (dn - 1)) by (unfold clamp; change (nhigh 1 n) with dn; lia).
            unfold x, lowp. ieq.
          * rewrite upd_other by lia. apply A1. unfold dn, sn, nhigh, nlow in *. lia.
        + intros q Hq. rewrite upd_other by (unfold dn, nhigh in *; lia). rewrite A2 by (unfold dn, nhigh in *; lia).
          reflexivity.
      - split.
        + intros i Hi. apply A1. unfold dn, sn, nhigh, nlow in *. lia.
        + intros q Hq. rewrite A2 by (unfold dn, nhigh in *; lia). reflexivity. }
    destruct M as [M1 M2].
    destruct (copy_spec dn (fun k => b + (sn + k)) (fun k => t2 (sn + k)) m3) as [C1 C2]; [intros; lia |].
    cbn [fst]. split.
    + intros k Hk. fold sn. destruct (Z.ltb_spec k sn) as [L | L].
      * rewrite C2 by lia. apply M1. lia.
      * replace (b + k) with (b + (sn + (k - sn))) by lia. rewrite C1 by (unfold dn, nhigh; fold sn; lia). apply T.
        unfold dn, nhigh; fold sn; lia.
    + intros q Hq. rewrite C2 by (unfold dn, nhigh in *; lia). apply M2. exact Hq.
Qed.
