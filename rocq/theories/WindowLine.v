(** The restricted inverse transform of one line computes the closed form of
    DwtSpec.v wherever its inputs are inside the window. *)

From Coq Require Import ZArith List Bool Lia.
From Verif Require Import I32 Ints Mem DwtModel DwtSpec DwtProofs WindowModel.
Import ListNotations.
Local Open Scope Z_scope.
Ltac Zify.zify_post_hook ::= Z.div_mod_to_equations.

(** ** Lines side by side *)

Definition partial1 (sn dn cas l0 l1 h0 h1 : Z) (u : mem) : mem :=
  if cas =? 0 then
    if (0 <? dn) || (1 <? sn) then
      let u := for_to l0 l1 (fun i u => upd u (2 * i) (i32 (u (2 * i) - quarter (u (1 + 2 * clamp dn (i - 1))) (u (1 + 2 * clamp dn i))))) u in
      for_to h0 h1 (fun i u => upd u (1 + 2 * i) (i32 (u (1 + 2 * i) + half (u (2 * clamp sn i)) (u (2 * clamp sn (i + 1)))))) u
    else u
  else if (sn =? 0) && (dn =? 1) then upd u 0 (Z.quot (u 0) 2)
  else
    let u := for_to l0 l1 (fun i u => upd u (1 + 2 * i) (i32 (u (1 + 2 * i) - quarter (u (2 * clamp dn i)) (u (2 * clamp dn (i + 1)))))) u in
    for_to h0 h1 (fun i u => upd u (2 * i) (i32 (u (2 * i) + half (u (1 + 2 * clamp sn i)) (u (1 + 2 * clamp sn (i - 1)))))) u.

Definition side (k : Z) (t : mem) (u : Z -> mem) : Prop := forall c q, 0 <= c < k -> t (q * k + c) = u c q.

Lemma side_lanes : forall k p (V : mem -> Z) (f : Z -> mem -> mem) t u, 0 <= k -> side k t u ->
  (forall c s x, 0 <= c < k -> f c s x = upd s (p * k + c) (V (fun q => s (q * k + c))) x) ->
  (forall a b : mem, (forall q, a q = b q) -> V a = V b) ->
  side k (lanes k f t) (fun c => upd (u c) p (V (u c))).
Proof.
  intros k p V f t u Hk HS Hf HV. unfold lanes.
  assert (G : forall j (s : mem), j = k -> (forall c q, 0 <= c < k -> s (q * k + c) = if c <? j then upd (u c) p (V (u c)) q else u c q) ->
              side k s (fun c => upd (u c) p (V (u c)))).
  { intros j s -> H c q Hc. rewrite H by exact Hc. replace (c <? k) with true by (symmetry; apply Z.ltb_lt; lia). reflexivity. }
  apply (G k); [reflexivity |]. clear G.
  apply (for_ind (fun j s => forall c q, 0 <= c < k -> s (q * k + c) = if c <? j then upd (u c) p (V (u c)) q else u c q)); [exact Hk | |].
  - intros c q Hc. replace (c <? 0) with false by (symmetry; apply Z.ltb_ge; lia). apply HS, Hc.
  - intros j s Hj IH c q Hc. rewrite Hf by exact Hj. unfold upd at 1. destruct (Z.eqb_spec (q * k + c) (p * k + j)) as [E | E].
    + destruct (row_col k q p c j ltac:(lia) ltac:(lia) E) as [-> ->].
      replace (j <? j + 1) with true by (symmetry; apply Z.ltb_lt; lia). rewrite upd_same.
      apply HV. intros q. rewrite IH by lia. rewrite Z.ltb_irrefl. reflexivity.
    + rewrite IH by exact Hc. destruct (Z.ltb_spec c j), (Z.ltb_spec c (j + 1)); try lia; try reflexivity.
      assert (c = j) by lia. subst c. rewrite upd_other by (intros ->; lia). reflexivity.
Qed.

Lemma side_for : forall k lo hi f g t u, side k t u -> (forall i t u, side k t u -> side k (f i t) (fun c => g i (u c))) ->
  side k (for_to lo hi f t) (fun c => for_to lo hi g (u c)).
Proof.
  intros k lo hi f g t u HS H. unfold for_to. generalize (Z.to_nat (hi - lo)). intros n. revert lo t u HS.
  induction n; intros lo t u HS; cbn [loop]; [exact HS |]. apply (IHn (lo + 1) (f lo t) (fun c => g lo (u c))). apply H, HS.
Qed.

Lemma side_partial : forall k sn dn cas l0 l1 h0 h1 t u, 0 <= k -> side k t u ->
  side k (decode_partial k sn dn cas l0 l1 h0 h1 t) (fun c => partial1 sn dn cas l0 l1 h0 h1 (u c)).
Proof.
  intros k sn dn cas l0 l1 h0 h1 t u Hk HS. unfold decode_partial, partial1.
  destruct (cas =? 0).
  - destruct ((0 <? dn) || (1 <? sn)); [| exact HS]. cbn zeta.
    apply (side_for k h0 h1 _ (fun i u => upd u (1 + 2 * i) (i32 (u (1 + 2 * i) + half (u (2 * clamp sn i)) (u (2 * clamp sn (i + 1))))))).
    + apply (side_for k l0 l1 _ (fun i u => upd u (2 * i) (i32 (u (2 * i) - quarter (u (1 + 2 * clamp dn (i - 1))) (u (1 + 2 * clamp dn i)))))); [exact HS |].
      intros i t' u' HS'.
      apply (side_lanes k (2 * i) (fun u => i32 (u (2 * i) - quarter (u (1 + 2 * clamp dn (i - 1))) (u (1 + 2 * clamp dn i)))) _ _ _ Hk HS');
        [intros; reflexivity | intros a b E; rewrite !E; reflexivity].
    + intros i t' u' HS'.
      apply (side_lanes k (1 + 2 * i) (fun u => i32 (u (1 + 2 * i) + half (u (2 * clamp sn i)) (u (2 * clamp sn (i + 1))))) _ _ _ Hk HS');
        [intros; reflexivity | intros a b E; rewrite !E; reflexivity].
  - destruct ((sn =? 0) && (dn =? 1)).
    + apply (side_lanes k 0 (fun u => Z.quot (u 0) 2) _ _ _ Hk HS); [intros; reflexivity | intros a b E; rewrite !E; reflexivity].
    + cbn zeta.
      apply (side_for k h0 h1 _ (fun i u => upd u (2 * i) (i32 (u (2 * i) + half (u (1 + 2 * clamp sn i)) (u (1 + 2 * clamp sn (i - 1))))))).
      * apply (side_for k l0 l1 _ (fun i u => upd u (1 + 2 * i) (i32 (u (1 + 2 * i) - quarter (u (2 * clamp dn i)) (u (2 * clamp dn (i + 1))))))); [exact HS |].
        intros i t' u' HS'.
        apply (side_lanes k (1 + 2 * i) (fun u => i32 (u (1 + 2 * i) - quarter (u (2 * clamp dn i)) (u (2 * clamp dn (i + 1))))) _ _ _ Hk HS');
          [intros; reflexivity | intros a b E; rewrite !E; reflexivity].
      * intros i t' u' HS'.
        apply (side_lanes k (2 * i) (fun u => i32 (u (2 * i) + half (u (1 + 2 * clamp sn i)) (u (1 + 2 * clamp sn (i - 1))))) _ _ _ Hk HS');
          [intros; reflexivity | intros a b E; rewrite !E; reflexivity].
Qed.

(** ** Where the result is right *)

Section Line.
  Variables (cas n l0 l1 h0 h1 : Z).
  Let sn := nlow cas n. Let dn := nhigh cas n.
  Definition has_low (i : Z) : Prop := l0 <= i < l1.
  Definition has_high (i : Z) : Prop := h0 <= i < h1.
  (** Low-pass samples computed from coefficients inside the window. *)
  Definition low_done (i : Z) : Prop := has_low i /\ has_high (clamp dn (i - 1 + cas)) /\ has_high (clamp dn (i + cas)).
  Definition high_done (i : Z) : Prop := has_high i /\ low_done (clamp sn (i - cas)) /\ low_done (clamp sn (i - cas + 1)).
  Definition done_ (p : Z) : Prop :=
    if n =? 1 then (if cas =? 0 then has_low 0 else has_high 0)
    else if p mod 2 =? cas then low_done (p / 2) else high_done (p / 2).
End Line.

Lemma partial1_spec : forall cas n l0 l1 h0 h1 y u, cas = 0 \/ cas = 1 -> 1 <= n ->
  0 <= l0 -> l1 <= nlow cas n -> 0 <= h0 -> h1 <= nhigh cas n ->
  (forall i, l0 <= i < l1 -> u (lowp cas i) = y i) ->
  (forall i, h0 <= i < h1 -> u (highp cas i) = y (nlow cas n + i)) ->
  forall p, 0 <= p < n -> done_ cas n l0 l1 h0 h1 p ->
    partial1 (nlow cas n) (nhigh cas n) cas l0 l1 h0 h1 u p = iline cas n y p.
Proof.
  intros cas n l0 l1 h0 h1 y buf Hc Hn Hl0 Hl1 Hh0 Hh1 HL HH p Hp Hd. unfold partial1, iline. unfold done_, high_done, low_done, has_low, has_high in Hd.
  set (sn := nlow cas n) in *. set (dn := nhigh cas n) in *.
  assert (Hsum : sn + dn = n) by (unfold dn, nhigh; fold sn; lia).
  destruct (Z.eqb_spec n 1) as [E1 | Hn1].
  { destruct Hc as [-> | ->]; cbn [Z.eqb] in *.
    - assert (sn = 1 /\ dn = 0) as [E2 E3] by (unfold dn, nhigh, sn, nlow in *; lia). rewrite E2, E3.
      change ((0 <? 0) || (1 <? 1)) with false. cbn iota. replace p with (lowp 0 0) by (unfold lowp; lia).
      rewrite HL by lia. reflexivity.
    - assert (sn = 0 /\ dn = 1) as [E2 E3] by (unfold dn, nhigh, sn, nlow in *; lia). rewrite E2, E3.
      change ((0 =? 0) && (1 =? 1)) with true. cbn iota. replace p with 0 by lia. rewrite upd_same.
      change 0 with (highp 1 0) at 1. rewrite HH by lia. f_equal. f_equal. lia. }
  assert (Hsn : 1 <= sn) by (unfold sn, nlow; lia).
  assert (Hdn : 1 <= dn) by (unfold dn, nhigh, nlow; lia).
  assert (Cd : forall i, 0 <= clamp dn i < dn) by (intros; unfold clamp; lia).
  assert (Cs : forall i, 0 <= clamp sn i < sn) by (intros; unfold clamp; lia).
  unfold lowp, highp in HL, HH.
  destruct Hc as [-> | ->]; cbn [Z.eqb].
  - replace ((0 <? dn) || (1 <? sn)) with true by (symmetry; apply orb_true_intro; left; apply Z.ltb_lt; lia).
    cbn zeta.
    match goal with |- for_to h0 h1 ?f2 (for_to l0 l1 ?f1 buf) p = _ =>
      destruct (fill_spec l0 l1 (fun i => 2 * i) (fun i => i32 (buf (2 * i) - quarter (buf (1 + 2 * clamp dn (i - 1))) (buf (1 + 2 * clamp dn i)))) f1 buf) as [A1 A2] end.
    { intros; lia. }
    { intros i b Hi B1 B2 q. rewrite !B1 by lia. reflexivity. }
    match goal with |- for_to h0 h1 ?f2 ?b1 p = _ =>
      set (buf1 := b1) in *; destruct (fill_spec h0 h1 (fun i => 1 + 2 * i) (fun i => i32 (buf1 (1 + 2 * i) + half (buf1 (2 * clamp sn i)) (buf1 (2 * clamp sn (i + 1))))) f2 buf1) as [D1 D2] end.
    { intros; lia. }
    { intros i b Hi B1 B2 q. rewrite !B1 by lia. reflexivity. }
    assert (LOW : forall i, l0 <= i < l1 -> h0 <= clamp dn (i - 1) < h1 -> h0 <= clamp dn i < h1 -> buf1 (2 * i) = ilow 0 n y i).
    { intros i Hi H1 H2. rewrite A1 by exact Hi. unfold ilow. fold sn dn.
      replace (2 * i) with (2 * i + 0) by lia. rewrite HL by lia.
      replace (1 + 2 * clamp dn (i - 1)) with (2 * clamp dn (i - 1) + 1 - 0) by lia. rewrite HH by lia.
      replace (1 + 2 * clamp dn i) with (2 * clamp dn i + 1 - 0) by lia. rewrite HH by lia.
      replace (i - 1 + 0) with (i - 1) by lia. replace (i + 0) with i by lia. reflexivity. }
    destruct (Z.eqb_spec (p mod 2) 0) as [E | E].
    + rewrite D2 by lia. replace p with (2 * (p / 2)) at 1 by lia.
      replace (p / 2 - 1 + 0) with (p / 2 - 1) in Hd by lia. replace (p / 2 + 0) with (p / 2) in Hd by lia. apply LOW; tauto.
    + replace p with (1 + 2 * (p / 2)) at 1 by lia. rewrite D1 by tauto. unfold ihigh. fold sn dn.
      repeat rewrite Z.sub_0_r in Hd. repeat rewrite Z.add_0_r in Hd. rewrite Z.sub_0_r. destruct Hd as (Hd1 & Hd2 & Hd3).
      rewrite (LOW _ (proj1 Hd2) (proj1 (proj2 Hd2)) (proj2 (proj2 Hd2))), (LOW _ (proj1 Hd3) (proj1 (proj2 Hd3)) (proj2 (proj2 Hd3))). rewrite (A2 (1 + 2 * (p / 2))) by lia.
      replace (1 + 2 * (p / 2)) with (2 * (p / 2) + 1 - 0) by lia. rewrite HH by lia. reflexivity.
  - replace ((sn =? 0) && (dn =? 1)) with false by (symmetry; apply andb_false_intro1, Z.eqb_neq; lia).
    cbn zeta.
    match goal with |- for_to h0 h1 ?f2 (for_to l0 l1 ?f1 buf) p = _ =>
      destruct (fill_spec l0 l1 (fun i => 1 + 2 * i) (fun i => i32 (buf (1 + 2 * i) - quarter (buf (2 * clamp dn i)) (buf (2 * clamp dn (i + 1))))) f1 buf) as [A1 A2] end.
    { intros; lia. }
    { intros i b Hi B1 B2 q. rewrite !B1 by lia. reflexivity. }
    match goal with |- for_to h0 h1 ?f2 ?b1 p = _ =>
      set (buf1 := b1) in *; destruct (fill_spec h0 h1 (fun i => 2 * i) (fun i => i32 (buf1 (2 * i) + half (buf1 (1 + 2 * clamp sn i)) (buf1 (1 + 2 * clamp sn (i - 1))))) f2 buf1) as [D1 D2] end.
    { intros; lia. }
    { intros i b Hi B1 B2 q. rewrite !B1 by lia. reflexivity. }
    assert (LOW : forall i, l0 <= i < l1 -> h0 <= clamp dn i < h1 -> h0 <= clamp dn (i + 1) < h1 -> buf1 (1 + 2 * i) = ilow 1 n y i).
    { intros i Hi H1 H2. rewrite A1 by exact Hi. unfold ilow. fold sn dn.
      replace (1 + 2 * i) with (2 * i + 1) by lia. rewrite HL by lia.
      replace (2 * clamp dn i) with (2 * clamp dn i + 1 - 1) by lia. rewrite HH by lia.
      replace (2 * clamp dn (i + 1)) with (2 * clamp dn (i + 1) + 1 - 1) by lia. rewrite HH by lia.
      replace (i - 1 + 1) with i by lia. reflexivity. }
    destruct (Z.eqb_spec (p mod 2) 1) as [E | E].
    + rewrite D2 by lia. replace p with (1 + 2 * (p / 2)) at 1 by lia.
      replace (p / 2 - 1 + 1) with (p / 2) in Hd by lia. apply LOW; tauto.
    + replace p with (2 * (p / 2)) at 1 by lia. rewrite D1 by tauto. unfold ihigh. fold sn dn.
      replace (p / 2 - 1 + 1) with (p / 2) in * by lia. destruct Hd as (Hd1 & (Hd2 & Hd2a & Hd2b) & Hd3 & Hd3a & Hd3b).
      replace (clamp sn (p / 2 - 1) - 1 + 1) with (clamp sn (p / 2 - 1)) in * by lia.
      replace (clamp sn (p / 2) - 1 + 1) with (clamp sn (p / 2)) in * by lia.
      rewrite !LOW by assumption. rewrite (A2 (2 * (p / 2))) by lia.
      replace (2 * (p / 2)) with (2 * (p / 2) + 1 - 1) by lia. rewrite HH by lia. rewrite half_comm. reflexivity.
Qed.
