(** Correct rounding of decimal literals to binary32. *)

From Coq Require Import ZArith Bool Lia.
From Verif Require Import LayaModel LayaSpec.
Local Open Scope Z_scope.

Lemma pow2_pos : forall n, 0 <= n -> 0 < 2 ^ n.
Proof. intros. apply Z.pow_pos_nonneg; lia. Qed.

Lemma pow2_split : forall a b, 0 <= a -> 0 <= b -> 2 ^ (a + b) = 2 ^ a * 2 ^ b.
Proof. intros. apply Z.pow_add_r; lia. Qed.

(** Comparison of num/den with 2^k after scaling by any common power. *)
Lemma scale_lt : forall num den k s, 0 <= s -> 0 <= s + k ->
  (num * 2 ^ s < den * 2 ^ (k + s) <->
   num * 2 ^ Z.max 0 (- k) < den * 2 ^ Z.max 0 k).
Proof.
  intros num den k s Hs Hk.
  set (t := s - Z.max 0 (- k)).
  assert (Ht : 0 <= t) by (unfold t; lia).
  replace s with (Z.max 0 (- k) + t) at 1 by (unfold t; lia).
  replace (k + s) with (Z.max 0 k + t) by (unfold t; lia).
  rewrite !pow2_split by lia. rewrite !Z.mul_assoc.
  pose proof (pow2_pos t Ht). split; intros H1.
  - apply Z.mul_lt_mono_pos_r in H1; assumption.
  - apply Z.mul_lt_mono_pos_r; assumption.
Qed.

Lemma log2_rat_spec : forall num den s, 0 < num -> 0 < den ->
  let k := log2_rat num den in
  0 <= s -> 0 <= s + k ->
  den * 2 ^ (k + s) <= num * 2 ^ s < den * 2 ^ (k + 1 + s).
Proof.
  intros num den s Hn Hd k Hs Hk.
  pose proof (Z.log2_spec num Hn) as [Hn1 Hn2].
  pose proof (Z.log2_spec den Hd) as [Hd1 Hd2].
  pose proof (Z.log2_nonneg num) as Ln. pose proof (Z.log2_nonneg den) as Ld.
  assert (Up : forall t, 0 <= t -> 0 <= t + (Z.log2 num - Z.log2 den + 1) ->
     num * 2 ^ t < den * 2 ^ (Z.log2 num - Z.log2 den + 1 + t)).
  { intros t Ht Ht2.
    apply Z.lt_le_trans with (2 ^ Z.succ (Z.log2 num) * 2 ^ t).
    - apply Z.mul_lt_mono_pos_r; [apply pow2_pos; lia | assumption].
    - rewrite <- pow2_split by lia.
      replace (Z.succ (Z.log2 num) + t)
        with (Z.log2 den + (Z.log2 num - Z.log2 den + 1 + t)) by lia.
      rewrite pow2_split by lia.
      apply Z.mul_le_mono_nonneg_r; [pose proof (pow2_pos (Z.log2 num - Z.log2 den + 1 + t)); lia | assumption]. }
  assert (Lo : forall t, 0 <= t -> 0 <= t + (Z.log2 num - Z.log2 den - 1) ->
     den * 2 ^ (Z.log2 num - Z.log2 den - 1 + t) <= num * 2 ^ t).
  { intros t Ht Ht2.
    apply Z.le_trans with (2 ^ Z.log2 num * 2 ^ t).
    - rewrite <- pow2_split by lia.
      replace (Z.log2 num + t)
        with (Z.succ (Z.log2 den) + (Z.log2 num - Z.log2 den - 1 + t)) by lia.
      rewrite (pow2_split (Z.succ (Z.log2 den))) by lia.
      apply Z.mul_le_mono_nonneg_r; [pose proof (pow2_pos (Z.log2 num - Z.log2 den - 1 + t)); lia | lia].
    - apply Z.mul_le_mono_nonneg_r; [pose proof (pow2_pos t); lia | assumption]. }
  set (k0 := Z.log2 num - Z.log2 den) in *.
  assert (Htest : (if 0 <=? k0 then num <? den * 2 ^ k0 else num * 2 ^ (- k0) <? den) = true
                  <-> num * 2 ^ Z.max 0 (- k0) < den * 2 ^ Z.max 0 k0).
  { destruct (Z.leb_spec 0 k0).
    - rewrite Z.ltb_lt, Z.max_l, Z.max_r by lia. rewrite Z.pow_0_r, Z.mul_1_r. reflexivity.
    - rewrite Z.ltb_lt, Z.max_r, Z.max_l by lia. rewrite Z.pow_0_r, Z.mul_1_r. reflexivity. }
  unfold log2_rat in k. fold k0 in k.
  destruct (if 0 <=? k0 then num <? den * 2 ^ k0 else num * 2 ^ (- k0) <? den) eqn:E.
  - subst k. pose proof (proj1 Htest eq_refl) as H. split.
    + apply Lo; lia.
    + replace (k0 - 1 + 1 + s) with (k0 + s) by lia.
      apply scale_lt; [lia | lia | assumption].
  - subst k. split; [| apply Up; lia].
    apply Z.nlt_ge. intros H. apply scale_lt in H; [| lia | lia].
    apply Htest in H. discriminate.
Qed.

(** ** Rounding to an integer *)

Lemma rhe_spec : forall v d, 0 < d ->
  let m := round_half_even v d in
  2 * Z.abs (v - m * d) <= d /\ (2 * Z.abs (v - m * d) = d -> Z.even m = true).
Proof.
  intros v d Hd m. unfold round_half_even in m.
  pose proof (Z.div_mod v d ltac:(lia)) as Hdm.
  pose proof (Z.mod_pos_bound v d Hd) as Hb.
  set (q := v / d) in *. set (r := v mod d) in *.
  destruct (Z.ltb_spec (2 * r) d).
  - subst m. replace (v - q * d) with r by lia. rewrite Z.abs_eq by lia. lia.
  - destruct (Z.ltb_spec d (2 * r)).
    + subst m. replace (v - (q + 1) * d) with (r - d) by lia. rewrite Z.abs_neq by lia. lia.
    + destruct (Z.even q) eqn:Eq.
      * subst m. replace (v - q * d) with r by lia. rewrite Z.abs_eq by lia. split; [lia | auto].
      * subst m. replace (v - (q + 1) * d) with (r - d) by lia. rewrite Z.abs_neq by lia.
        split; [lia |]. intros _. rewrite Z.add_1_r, Z.even_succ.
        rewrite <- Z.negb_even, Eq. reflexivity.
Qed.

Lemma rhe_nearest : forall v d t, 0 < d ->
  let m := round_half_even v d in
  Z.abs (v - m * d) <= Z.abs (v - t * d) /\
  (Z.abs (v - m * d) = Z.abs (v - t * d) -> t = m \/ Z.even m = true).
Proof.
  intros v d t Hd m. destruct (rhe_spec v d Hd) as [H1 H2]. fold m in H1, H2.
  destruct (Z.eq_dec t m) as [-> | Hne]; [lia |].
  assert (H : d <= Z.abs (m * d - t * d)).
  { replace (m * d - t * d) with ((m - t) * d) by ring. rewrite Z.abs_mul, (Z.abs_eq d) by lia.
    nia. }
  assert (Z.abs (m * d - t * d) <= Z.abs (v - m * d) + Z.abs (v - t * d)) by lia.
  split; [lia |]. intros Heq. right. apply H2. lia.
Qed.

Lemma rhe_scale : forall v d c, 0 < d -> 0 < c ->
  round_half_even (v * c) (d * c) = round_half_even v d.
Proof.
  intros v d c Hd Hc. unfold round_half_even.
  rewrite Z.div_mul_cancel_r by lia. rewrite Z.mul_mod_distr_r by lia.
  set (r := v mod d).
  replace (2 * (r * c) <? d * c) with (2 * r <? d).
  2: { apply eq_true_iff_eq. rewrite !Z.ltb_lt. nia. }
  replace (d * c <? 2 * (r * c)) with (d <? 2 * r).
  2: { apply eq_true_iff_eq. rewrite !Z.ltb_lt. nia. }
  reflexivity.
Qed.

(** ** Canonical binary32 values *)

Lemma units_unique : forall m1 e1 m2 e2, canonical m1 e1 -> canonical m2 e2 ->
  units m1 e1 = units m2 e2 -> m1 = m2 /\ e1 = e2.
Proof.
  assert (W : forall m1 e1 m2 e2, canonical m1 e1 -> canonical m2 e2 -> e1 < e2 ->
              units m1 e1 < units m2 e2).
  { unfold canonical, units. intros m1 e1 m2 e2 H1 H2 Hlt.
    replace (e2 + 149) with ((e2 - e1 - 1) + 1 + (e1 + 149)) by lia.
    rewrite (pow2_split (e2 - e1 - 1 + 1)), (pow2_split (e2 - e1 - 1)) by lia.
    pose proof (pow2_pos (e2 - e1 - 1) ltac:(lia)). pose proof (pow2_pos (e1 + 149) ltac:(lia)).
    change (2 ^ 1) with 2. change (2 ^ 24) with 16777216 in *. change (2 ^ 23) with 8388608 in *.
    assert (m1 < m2 * (2 ^ (e2 - e1 - 1) * 2)) by nia. nia. }
  intros m1 e1 m2 e2 H1 H2 H.
  destruct (Z.lt_trichotomy e1 e2) as [L | [-> | L]].
  - pose proof (W _ _ _ _ H1 H2 L). lia.
  - split; [| reflexivity]. unfold units in H. unfold canonical in *.
    pose proof (pow2_pos (e2 + 149) ltac:(lia)). nia.
  - pose proof (W _ _ _ _ H2 H1 L). lia.
Qed.

(** No canonical value lies strictly between (m,e) and (m+1,e). *)
Lemma units_gap : forall m e m' e', canonical m e -> canonical m' e' ->
  units m e < units m' e' -> units m e + 2 ^ (e + 149) <= units m' e'.
Proof.
  intros m e m' e' Hc Hc' Hlt. unfold canonical, units in *.
  change (2 ^ 24) with 16777216 in *. change (2 ^ 23) with 8388608 in *.
  destruct (Z.le_gt_cases e e') as [Hle | Hgt].
  - replace (e' + 149) with ((e' - e) + (e + 149)) in * by lia.
    rewrite (pow2_split (e' - e)) in * by lia.
    pose proof (pow2_pos (e + 149) ltac:(lia)) as Hp.
    replace (m' * (2 ^ (e' - e) * 2 ^ (e + 149))) with ((m' * 2 ^ (e' - e)) * 2 ^ (e + 149)) in * by ring.
    apply Z.mul_lt_mono_pos_r in Hlt; [| assumption]. nia.
  - exfalso.
    replace (e + 149) with ((e - e' - 1) + 1 + (e' + 149)) in * by lia.
    rewrite (pow2_split (e - e' - 1 + 1)), (pow2_split (e - e' - 1)) in * by lia.
    pose proof (pow2_pos (e - e' - 1) ltac:(lia)). pose proof (pow2_pos (e' + 149) ltac:(lia)).
    change (2 ^ 1) with 2 in *.
    assert (m' < m * (2 ^ (e - e' - 1) * 2)) by nia. nia.
Qed.

Lemma canonical_succ : forall m e, canonical m e -> Z.even m = true -> canonical (m + 1) e.
Proof.
  unfold canonical. intros m e H He.
  assert (m <> 2 ^ 24 - 1) by (intros ->; discriminate).
  change (2 ^ 24) with 16777216 in *. change (2 ^ 23) with 8388608 in *. lia.
Qed.

Lemma units_succ : forall m e, units (m + 1) e = units m e + 2 ^ (e + 149).
Proof. intros. unfold units. ring. Qed.

(** A rounded value is at most an even canonical threshold exactly when the
    exact value is at most the midpoint above the threshold. *)
Lemma nearest_le_even : forall num den m e T eT, 0 <= num -> 0 < den ->
  nearest num den (Some (m, e)) -> canonical T eT -> Z.even T = true ->
  (units m e <= units T eT <->
   2 * (num * 2 ^ 149) <= (2 * units T eT + 2 ^ (eT + 149)) * den).
Proof.
  intros num den m e T eT Hn Hd Hnear HcT HeT.
  destruct Hnear as (_ & Hc & Hmin).
  pose proof (Hmin _ _ HcT) as [HT1 HT2].
  pose proof (Hmin _ _ (canonical_succ _ _ HcT HeT)) as [HS1 HS2].
  unfold distance in *. rewrite units_succ in *.
  assert (Hp : 0 < 2 ^ (eT + 149)) by (apply pow2_pos; unfold canonical in HcT; lia).
  set (V := num * 2 ^ 149) in *. set (U := units m e) in *. set (W := units T eT) in *.
  set (G := 2 ^ (eT + 149)) in *.
  split.
  - intros Hle. apply Z.nlt_ge. intros Hgt. nia.
  - intros Hle. apply Z.nlt_ge. intros Hgt.
    pose proof (units_gap _ _ _ _ HcT Hc Hgt) as Hgap. fold W G U in Hgap.
    assert (Heq : Z.abs (V - U * den) = Z.abs (V - W * den)) by nia.
    destruct (HT2 Heq) as [Hu | Hev]; [lia |].
    assert (HU : U = W + G) by nia.
    unfold U, W, G in HU. rewrite <- units_succ in HU.
    destruct (units_unique _ _ _ _ Hc (canonical_succ _ _ HcT HeT) HU) as [-> _].
    rewrite Z.add_1_r, Z.even_succ, <- Z.negb_even, HeT in Hev. discriminate.
Qed.

Lemma nearest_fun : forall num den g1 g2, 0 <= num -> 0 < den ->
  nearest num den g1 -> nearest num den g2 -> g1 = g2.
Proof.
  intros num den g1 g2 Hn Hd H1 H2.
  destruct g1 as [[m1 e1] |], g2 as [[m2 e2] |].
  - assert (Sym : forall m1 e1 m2 e2, nearest num den (Some (m1, e1)) ->
              nearest num den (Some (m2, e2)) -> units m1 e1 < units m2 e2 -> False).
    { clear - Hd. intros m1 e1 m2 e2 H1 H2 Hlt.
      pose proof H1 as (_ & Hc1 & Hm1). pose proof H2 as (_ & Hc2 & Hm2).
      destruct (Hm1 _ _ Hc2) as [A1 A2]. destruct (Hm2 _ _ Hc1) as [B1 B2].
      assert (E : distance num den m1 e1 = distance num den m2 e2) by lia.
      destruct (A2 E) as [A | A]; [lia |]. destruct (B2 (eq_sym E)) as [B | B]; [lia |].
      pose proof (canonical_succ _ _ Hc1 A) as Hs.
      pose proof (units_gap _ _ _ _ Hc1 Hc2 Hlt) as Hg. rewrite <- units_succ in Hg.
      destruct (Z.eq_dec (units (m1 + 1) e1) (units m2 e2)) as [Eq | Ne].
      - destruct (units_unique _ _ _ _ Hs Hc2 Eq) as [<- _].
        rewrite Z.add_1_r, Z.even_succ, <- Z.negb_even, A in B. discriminate.
      - destruct (Hm1 _ _ Hs) as [C1 _]. destruct (Hm2 _ _ Hs) as [D1 _].
        assert (Hp : 0 < 2 ^ (e1 + 149)) by (apply pow2_pos; unfold canonical in Hc1; lia).
        assert (units m1 e1 < units (m1 + 1) e1) by (rewrite units_succ; lia).
        unfold distance in *.
        assert (units m1 e1 * den < units (m1 + 1) e1 * den) by (apply Z.mul_lt_mono_pos_r; lia).
        assert (units (m1 + 1) e1 * den < units m2 e2 * den) by (apply Z.mul_lt_mono_pos_r; lia).
        lia. }
    destruct (Z.lt_trichotomy (units m1 e1) (units m2 e2)) as [L | [E | L]].
    + exfalso. eauto.
    + destruct H1 as (_ & Hc1 & _), H2 as (_ & Hc2 & _).
      destruct (units_unique _ _ _ _ Hc1 Hc2 E) as [-> ->]. reflexivity.
    + exfalso. eauto.
  - destruct H1 as [H1 _]. exfalso. exact (Z.lt_irrefl _ (Z.lt_le_trans _ _ _ H1 H2)).
  - destruct H2 as [H2 _]. exfalso. exact (Z.lt_irrefl _ (Z.lt_le_trans _ _ _ H2 H1)).
  - reflexivity.
Qed.

(** ** [round_f32] meets the specification *)

Lemma round_f32_nearest : forall neg num den, 0 <= num -> 0 < den ->
  exists g, round_f32 neg num den = signed neg g /\ nearest num den g.
Proof.
  intros neg num den Hn Hd. unfold round_f32.
  destruct (Z.eqb_spec num 0) as [-> | Hnz].
  { exists (Some (0, -149)). split; [reflexivity |].
    split; [cbn [Z.mul]; pose proof (Z.mul_pos_pos (2 ^ 128 - 2 ^ 103) den ltac:(reflexivity) Hd); lia |].
    split; [unfold canonical; lia |].
    intros m' e' Hc. unfold distance. rewrite Z.mul_0_l. unfold units at 1 3.
    rewrite !Z.mul_0_l. simpl Z.abs at 1 3. split; [lia |]. intros; right; reflexivity. }
  assert (Hpos : 0 < num) by lia. clear Hnz Hn.
  set (k := log2_rat num den). set (e := Z.max (-149) (k - 23)).
  set (V := num * 2 ^ 149). set (D := den * 2 ^ (e + 149)).
  assert (HD : 0 < D) by (apply Z.mul_pos_pos; [assumption | apply pow2_pos; lia]).
  assert (Hm : (if 0 <=? e then round_half_even num (den * 2 ^ e)
                else round_half_even (num * 2 ^ (- e)) den) = round_half_even V D).
  { destruct (Z.leb_spec 0 e).
    - unfold D. rewrite pow2_split by lia. rewrite Z.mul_assoc. unfold V.
      rewrite rhe_scale; [reflexivity | | apply pow2_pos; lia].
      apply Z.mul_pos_pos; [assumption | apply pow2_pos; lia].
    - unfold V. replace 149 with (- e + (e + 149)) at 1 by lia.
      rewrite pow2_split by lia. rewrite Z.mul_assoc. unfold D.
      rewrite rhe_scale; [reflexivity | assumption | apply pow2_pos; lia]. }
  rewrite Hm. clear Hm. set (m := round_half_even V D).
  assert (Hrhe := rhe_spec V D HD). fold m in Hrhe. destruct Hrhe as [Hr1 Hr2].
  assert (Hnr : forall t, Z.abs (V - m * D) <= Z.abs (V - t * D) /\
            (Z.abs (V - m * D) = Z.abs (V - t * D) -> t = m \/ Z.even m = true))
    by (intros t; apply rhe_nearest; assumption).
  (* bounds on V/D *)
  assert (HVlt : V < D * 2 ^ 24).
  { destruct (Z_le_gt_dec 0 (149 + k)) as [Hk | Hk].
    - destruct (log2_rat_spec num den 149 Hpos Hd ltac:(lia) Hk) as [_ H]. fold k V in H.
      apply Z.lt_le_trans with (1 := H). unfold D.
      rewrite <- Z.mul_assoc, <- pow2_split by lia.
      apply Z.mul_le_mono_nonneg_l; [lia |]. apply Z.pow_le_mono_r; lia.
    - set (s := - k).
      destruct (log2_rat_spec num den s Hpos Hd ltac:(lia) ltac:(unfold s; fold k; lia)) as [_ H].
      fold k in H. replace (k + 1 + s) with 1 in H by (unfold s; lia).
      replace s with (149 + (s - 149)) in H by lia. rewrite pow2_split in H by (unfold s; lia).
      rewrite Z.mul_assoc in H. fold V in H.
      pose proof (pow2_pos (s - 149) ltac:(unfold s; lia)).
      unfold D. replace (e + 149) with 0 by lia. rewrite Z.pow_0_r, Z.mul_1_r.
      change (2 ^ 1) with 2 in H. change (2 ^ 24) with 16777216. nia. }
  assert (HVge : -149 < e -> D * 2 ^ 23 <= V).
  { intros He.
    destruct (log2_rat_spec num den 149 Hpos Hd ltac:(lia) ltac:(fold k; lia)) as [H _]. fold k V in H.
    unfold D. rewrite <- Z.mul_assoc, <- pow2_split by lia.
    replace (e + 149 + 23) with (k + 149) by lia. assumption. }
  assert (Hm24 : m <= 2 ^ 24) by (change (2 ^ 24) with 16777216 in *; nia).
  assert (Hm0 : 0 <= m) by (assert (0 < V) by (unfold V; lia); nia).
  assert (Hm23 : -149 < e -> 2 ^ 23 <= m).
  { intros He. specialize (HVge He). change (2 ^ 23) with 8388608 in *. nia. }
  assert (Hnear : forall m' e', canonical m' e' ->
     Z.abs (V - m * D) <= Z.abs (V - units m' e' * den) /\
     (Z.abs (V - m * D) = Z.abs (V - units m' e' * den) ->
       units m' e' * den = m * D \/ Z.even m = true)).
  { intros m' e' Hc. unfold units, canonical in *.
    change (2 ^ 24) with 16777216 in *. change (2 ^ 23) with 8388608 in *.
    destruct (Z_le_gt_dec e e') as [Hle | Hgt].
    - replace (m' * 2 ^ (e' + 149) * den) with ((m' * 2 ^ (e' - e)) * D).
      2: { unfold D. replace (e' + 149) with ((e' - e) + (e + 149)) by lia.
           rewrite (pow2_split (e' - e)) by lia. ring. }
      destruct (Hnr (m' * 2 ^ (e' - e))) as [A B]. split; [assumption |].
      intros E. destruct (B E) as [-> | ?]; [left; reflexivity | right; assumption].
    - assert (He : -149 < e) by lia. specialize (HVge He).
      assert (Hlt : m' * 2 ^ (e' + 149) * den < 8388608 * D).
      { unfold D. replace (e + 149) with ((e - e' - 1) + 1 + (e' + 149)) by lia.
        rewrite (pow2_split (e - e' - 1 + 1)), (pow2_split (e - e' - 1)) by lia. change (2 ^ 1) with 2.
        pose proof (pow2_pos (e - e' - 1) ltac:(lia)). pose proof (pow2_pos (e' + 149) ltac:(lia)).
        apply Z.le_lt_trans with (16777215 * 2 ^ (e' + 149) * den); [nia |].
        replace (8388608 * (den * (2 ^ (e - e' - 1) * 2 * 2 ^ (e' + 149))))
          with ((16777216 * 2 ^ (e - e' - 1)) * (2 ^ (e' + 149) * den)) by ring.
        rewrite <- Z.mul_assoc. apply Z.mul_lt_mono_pos_r; [nia |]. nia. }
      destruct (Hnr 8388608) as [A _].
      split; [lia |]. intros; lia. }
  assert (HmD : forall x y, units x y * den = x * (den * 2 ^ (y + 149))) by (intros; unfold units; ring).
  destruct (Z.eqb_spec m 16777216) as [Hmax | Hnmax].
  - destruct (Z.ltb_spec 104 (e + 1)) as [Hov | Hfin].
    + exists None. split; [reflexivity |]. unfold nearest.
      unfold V, D in *. rewrite Hmax in *.
      assert (Hx : (2 ^ 25 - 1) * (den * 2 ^ (e + 149)) <= 2 * (num * 2 ^ 149)) by lia.
      assert (Hy : (2 ^ 25 - 1) * (den * 2 ^ 253) <= 2 * (num * 2 ^ 149)).
      { apply Z.le_trans with (2 := Hx). apply Z.mul_le_mono_nonneg_l; [discriminate |].
        apply Z.mul_le_mono_nonneg_l; [lia |]. apply Z.pow_le_mono_r; lia. }
      change (2 ^ 253) with (2 ^ 104 * 2 ^ 149) in Hy.
      change (2 ^ 128 - 2 ^ 103) with ((2 ^ 25 - 1) * 2 ^ 103).
      change (2 ^ 104) with (2 * 2 ^ 103) in Hy.
      pose proof (pow2_pos 149 ltac:(lia)).
      apply Z.mul_le_mono_pos_r with (p := 2 ^ 149); [assumption |]. lia.
    + exists (Some (8388608, e + 1)). split; [reflexivity |].
      split.
      { assert (V < den * 2 ^ (127 + 149)).
        { apply Z.lt_le_trans with (1 := HVlt). unfold D. rewrite <- Z.mul_assoc, <- pow2_split by lia.
          apply Z.mul_le_mono_nonneg_l; [lia |]. apply Z.pow_le_mono_r; lia. }
        unfold V in *. rewrite pow2_split, Z.mul_assoc in H by lia.
        apply Z.mul_lt_mono_pos_r in H; [| apply pow2_pos; lia].
        apply Z.lt_le_trans with (1 := H). rewrite Z.mul_comm.
        apply Z.mul_le_mono_nonneg_r; [lia |]. discriminate. }
      split; [unfold canonical; change (2 ^ 24) with 16777216; change (2 ^ 23) with 8388608; lia |].
      intros m' e' Hc. destruct (Hnear m' e' Hc) as [A B]. unfold distance. fold V.
      assert (HU : units 8388608 (e + 1) * den = m * D).
      { rewrite Hmax. rewrite HmD. unfold D. replace (e + 1 + 149) with (1 + (e + 149)) by lia.
        rewrite (pow2_split 1) by lia. change (2 ^ 1) with 2. ring. }
      rewrite HU. split; [assumption |]. intros; right; reflexivity.
  - destruct (Z.ltb_spec 104 e) as [Hov | Hfin].
    + exists None. split; [reflexivity |]. unfold nearest.
      assert (He : -149 < e) by lia. specialize (HVge He).
      assert (H : den * 2 ^ (128 + 149) <= V).
      { apply Z.le_trans with (2 := HVge). unfold D. rewrite <- Z.mul_assoc, <- pow2_split by lia.
        apply Z.mul_le_mono_nonneg_l; [lia |]. apply Z.pow_le_mono_r; lia. }
      unfold V in H. rewrite pow2_split, Z.mul_assoc in H by lia.
      apply Z.mul_le_mono_pos_r in H; [| apply pow2_pos; lia].
      apply Z.le_trans with (2 := H). rewrite Z.mul_comm.
      apply Z.mul_le_mono_nonneg_l; [lia |]. discriminate.
    + exists (Some (m, e)). split; [reflexivity |].
      change (2 ^ 24) with 16777216 in *. change (2 ^ 23) with 8388608 in *.
      split.
      { destruct (Z.eq_dec e 104) as [E104 | N104].
        - assert (Hstrict : 2 * V < (2 * 16777216 - 1) * D).
          { destruct (Z.eq_dec m 16777215) as [Eo | No].
            - assert (2 * Z.abs (V - m * D) <> D).
              { intros E. apply Hr2 in E. rewrite Eo in E. discriminate. }
              rewrite Eo in *. lia.
            - nia. }
          unfold V, D in Hstrict. rewrite E104 in Hstrict.
          change (2 ^ (104 + 149)) with (2 ^ 104 * 2 ^ 149) in Hstrict.
          change (2 ^ 128 - 2 ^ 103) with ((2 * 16777216 - 1) * 2 ^ 103).
          change (2 ^ 104) with (2 * 2 ^ 103) in Hstrict.
          apply Z.mul_lt_mono_pos_r with (p := 2 ^ 149); [apply pow2_pos; lia |]. lia.
        - assert (V < den * 2 ^ (127 + 149)).
          { apply Z.lt_le_trans with (1 := HVlt). unfold D. change 16777216 with (2 ^ 24).
            rewrite <- Z.mul_assoc, <- pow2_split by lia.
            apply Z.mul_le_mono_nonneg_l; [lia |]. apply Z.pow_le_mono_r; lia. }
          unfold V in *. rewrite pow2_split, Z.mul_assoc in H by lia.
          apply Z.mul_lt_mono_pos_r in H; [| apply pow2_pos; lia].
          apply Z.lt_le_trans with (1 := H). rewrite Z.mul_comm.
          apply Z.mul_le_mono_nonneg_r; [lia |]. discriminate. }
      split.
      { unfold canonical. change (2 ^ 24) with 16777216 in *. change (2 ^ 23) with 8388608 in *. lia. }
      intros m' e' Hc. destruct (Hnear m' e' Hc) as [A B]. unfold distance. fold V.
      assert (HU : units m e * den = m * D) by (rewrite HmD; reflexivity).
      rewrite HU. split; [assumption |]. intros E. destruct (B E) as [B' | B']; [| right; assumption].
      left. rewrite <- HU in B'. apply Z.mul_cancel_r in B'; [assumption | lia].
Qed.

Lemma signed_inj : forall neg g1 g2, signed neg g1 = signed neg g2 -> g1 = g2.
Proof.
  intros neg [[m1 e1] |] [[m2 e2] |] H; simpl in H; inversion H; reflexivity.
Qed.

Lemma round_f32_spec : forall neg num den g, 0 <= num -> 0 < den ->
  (round_f32 neg num den = signed neg g <-> nearest num den g).
Proof.
  intros neg num den g Hn Hd.
  destruct (round_f32_nearest neg num den Hn Hd) as [g0 [E0 N0]]. split; intros H.
  - rewrite E0 in H. apply signed_inj in H. subst. assumption.
  - rewrite E0. f_equal. eapply nearest_fun; eassumption.
Qed.
