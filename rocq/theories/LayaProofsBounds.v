(** Explicit numeric bounds of accepted percentages and angles. *)

From Coq Require Import ZArith NArith List String Ascii Bool Lia.
From Verif Require Import LayaModel LayaSpec LayaProofsStr LayaProofsF32 LayaProofsParse LayaProofsIiif.
Import ListNotations.
Local Open Scope string_scope.

Lemma decimal_nonneg : forall t m p, decimal t m p -> (0 <= m)%Z.
Proof.
  intros t m p (ip & fp & dot & ex & x & _ & _ & Hd & _). eapply digits_nonneg; exact Hd.
Qed.

Lemma pow10_pos : forall p, (0 < 10 ^ Z.max 0 p)%Z.
Proof. intros. apply Z.pow_pos_nonneg; lia. Qed.

Lemma num_nonneg : forall m p, (0 <= m)%Z -> (0 <= m * 10 ^ Z.max 0 p)%Z.
Proof. intros. pose proof (pow10_pos p). nia. Qed.

(** Sign of the rounded value. *)
Lemma nearest_zero : forall m p a e, (0 <= m)%Z ->
  nearest (m * 10 ^ Z.max 0 p) (10 ^ Z.max 0 (- p)) (Some (a, e)) ->
  (a = 0%Z <-> dec_le m p 1 (2 ^ 150)).
Proof.
  intros m p a e Hm Hn. unfold dec_le.
  pose proof (nearest_le_even _ _ a e 0 (-149) (num_nonneg m p Hm) (pow10_pos (- p)) Hn) as H.
  assert (Hc : canonical 0 (-149)) by (unfold canonical; split; [split; reflexivity || lia | split; [lia | right; reflexivity]]).
  specialize (H Hc eq_refl).
  assert (Hcan : canonical a e) by (destruct Hn as (_ & X & _); exact X).
  assert (H0 : (units a e <= units 0 (-149) <-> a = 0)%Z).
  { unfold units. destruct Hcan as ((Ha & _) & (He & _) & _).
    pose proof (pow2_pos (e + 149)). change (0 * 2 ^ (-149 + 149))%Z with 0%Z. nia. }
  rewrite <- H0, H. unfold units. change (2 ^ (-149 + 149))%Z with 1%Z.
  change (2 ^ 150)%Z with (2 * 2 ^ 149)%Z. lia.
Qed.

(** Rounded value at most an integer [c] that is an even significand scaled by
    [2^eT]: the exact value is at most the midpoint above [c]. *)
Lemma nearest_at_most : forall m p a e T eT c, (0 <= m)%Z ->
  nearest (m * 10 ^ Z.max 0 p) (10 ^ Z.max 0 (- p)) (Some (a, e)) ->
  canonical T eT -> Z.even T = true -> (-100 <= eT <= 0)%Z -> (T = c * 2 ^ (- eT))%Z ->
  ((units a e <= c * 2 ^ 149)%Z <-> dec_le m p (c * 2 ^ (1 - eT) + 1) (2 ^ (1 - eT))).
Proof.
  intros m p a e T eT c Hm Hn Hc He Hr HT. unfold dec_le.
  pose proof (nearest_le_even _ _ a e T eT (num_nonneg m p Hm) (pow10_pos (- p)) Hn Hc He) as H.
  assert (HU : (units T eT = c * 2 ^ 149)%Z).
  { unfold units. rewrite HT, <- Z.mul_assoc, <- pow2_split by lia. f_equal. f_equal. lia. }
  rewrite HU in H. rewrite H.
  set (num := (m * 10 ^ Z.max 0 p)%Z). set (den := (10 ^ Z.max 0 (- p))%Z).
  assert (E : (2 ^ 150 = 2 ^ (1 - eT) * 2 ^ (eT + 149))%Z).
  { rewrite <- pow2_split by lia. f_equal. lia. }
  pose proof (pow2_pos (eT + 149) ltac:(lia)) as P.
  replace (2 * (num * 2 ^ 149))%Z with (num * 2 ^ 150)%Z
    by (change (2 ^ 150)%Z with (2 * 2 ^ 149)%Z; ring).
  replace (2 * (c * 2 ^ 149))%Z with (c * 2 ^ 150)%Z
    by (change (2 ^ 150)%Z with (2 * 2 ^ 149)%Z; ring).
  rewrite E. nia.
Qed.

Lemma nearest_inf_big : forall m p c, (0 <= m)%Z ->
  nearest (m * 10 ^ Z.max 0 p) (10 ^ Z.max 0 (- p)) None -> forall a b, (0 < b)%Z ->
  (a < c * b)%Z -> (c <= 2 ^ 127)%Z -> ~ dec_le m p a b.
Proof.
  intros m p c Hm Hn a b Hb Ha Hc. unfold dec_le, nearest in *.
  pose proof (pow10_pos (- p)). set (den := (10 ^ Z.max 0 (- p))%Z) in *.
  set (num := (m * 10 ^ Z.max 0 p)%Z) in *.
  assert (c * den <= num)%Z.
  { eapply Z.le_trans; [| exact Hn]. apply Z.mul_le_mono_nonneg_r; [lia |].
    eapply Z.le_trans; [exact Hc |]. cbv. discriminate. }
  nia.
Qed.

(** Existence of the rounded value of a decimal. *)
Lemma nearest_total : forall m p, (0 <= m)%Z ->
  exists g, nearest (m * 10 ^ Z.max 0 p) (10 ^ Z.max 0 (- p)) g.
Proof.
  intros m p Hm. destruct (round_f32_nearest false _ _ (num_nonneg m p Hm) (pow10_pos (- p))) as (g & _ & H).
  eauto.
Qed.

Lemma canon100 : canonical 13107200 (-17).
Proof. unfold canonical. lia. Qed.
Lemma canon360 : canonical 11796480 (-15).
Proof. unfold canonical. lia. Qed.

(** A positive literal at most 100. *)
Lemma pct_bounds : forall t,
  (exists f, f32_literal t f /\ f32_positive f /\ f32_at_most f 100) <->
  (exists m p, plus_decimal t m p /\ ~ dec_le m p 1 (2 ^ 150) /\ dec_le m p (100 * 2 ^ 18 + 1) (2 ^ 18)).
Proof.
  intros t. split.
  - intros (f & (sign & neg & body & Hs & -> & Hb) & Hp & Hm).
    destruct Hb as [(m & p & g & Hd & -> & Hn) | [[_ ->] | [_ ->]]];
      [| simpl in Hp, Hm; congruence | contradiction].
    pose proof (decimal_nonneg _ _ _ Hd) as Hnn.
    destruct g as [[a e] |]; [| simpl in Hp, Hm; congruence].
    simpl in Hp. destruct Hp as [-> Ha]. destruct Hm as [Hm | Hm]; [discriminate |].
    exists m, p. split; [| split].
    + exists sign, body. destruct Hs as [[_ X] | [X _]]; [discriminate |]. intuition.
    + rewrite <- (nearest_zero _ _ _ _ Hnn Hn). lia.
    + apply (nearest_at_most m p a e 13107200 (-17) 100 Hnn Hn canon100 eq_refl); [lia | reflexivity | exact Hm].
  - intros (m & p & (sign & body & Hs & -> & Hd) & Hz & Hle).
    pose proof (decimal_nonneg _ _ _ Hd) as Hnn.
    destruct (nearest_total m p Hnn) as [g Hn].
    destruct g as [[a e] |].
    2: { exfalso. eapply (nearest_inf_big m p 101 Hnn Hn); [| | | exact Hle]; cbv; congruence. }
    exists (F32fin false a e). split; [| split].
    + exists sign, false, body. split; [right; tauto |]. split; [reflexivity |]. left.
      exists m, p, (Some (a, e)). auto.
    + rewrite <- (nearest_zero _ _ _ _ Hnn Hn) in Hz. simpl. split; [reflexivity |].
      destruct Hn as (_ & ((Ha & _) & _) & _). lia.
    + right. apply (nearest_at_most m p a e 13107200 (-17) 100 Hnn Hn canon100 eq_refl); [lia | reflexivity | exact Hle].
Qed.

(** A positive literal (possibly infinite). *)
Lemma positive_bounds : forall t,
  (exists f, f32_literal t f /\ f32_positive f) <->
  (exists m p, plus_decimal t m p /\ ~ dec_le m p 1 (2 ^ 150)) \/ plus_infinity t.
Proof.
  intros t. split.
  - intros (f & (sign & neg & body & Hs & -> & Hb) & Hp).
    assert (Hneg : neg = false).
    { destruct Hb as [(m & p & g & Hd & -> & Hn) | [[_ ->] | [_ ->]]];
        [destruct g as [[a e] |]; simpl in Hp; tauto | simpl in Hp; assumption | contradiction]. }
    subst neg.
    assert (Hsg : sign = "" \/ sign = "+") by (destruct Hs as [[_ X] | [X _]]; [discriminate | tauto]).
    destruct Hb as [(m & p & g & Hd & -> & Hn) | [[Hw ->] | [_ ->]]]; [left | right | contradiction].
    + pose proof (decimal_nonneg _ _ _ Hd) as Hnn. exists m, p. split; [exists sign, body; auto |].
      destruct g as [[a e] |].
      * rewrite <- (nearest_zero _ _ _ _ Hnn Hn). simpl in Hp. lia.
      * eapply (nearest_inf_big m p 1 Hnn Hn); cbv; congruence.
    + exists sign, body. auto.
  - intros [(m & p & (sign & body & Hs & -> & Hd) & Hz) | (sign & body & Hs & -> & Hw)].
    + pose proof (decimal_nonneg _ _ _ Hd) as Hnn.
      destruct (nearest_total m p Hnn) as [g Hn].
      exists (signed false g). split.
      * exists sign, false, body. split; [right; tauto |]. split; [reflexivity |]. left.
        exists m, p, g. auto.
      * destruct g as [[a e] |]; [| reflexivity].
        rewrite <- (nearest_zero _ _ _ _ Hnn Hn) in Hz. simpl. split; [reflexivity |].
        destruct Hn as (_ & ((Ha & _) & _) & _). lia.
    + exists (F32inf false). split; [| reflexivity].
      exists sign, false, body. split; [right; tauto |]. split; [reflexivity |]. right. left. auto.
Qed.

(** An angle between 0 and 360. *)
Lemma angle_bounds : forall t,
  (exists f, f32_literal t f /\ f32_nonnegative f /\ f32_at_most f 360) <->
  (exists m p, plus_decimal t m p /\ dec_le m p (360 * 2 ^ 16 + 1) (2 ^ 16)) \/
  (exists m p, minus_decimal t m p /\ dec_le m p 1 (2 ^ 150)).
Proof.
  intros t. split.
  - intros (f & (sign & neg & body & Hs & -> & Hb) & Hp & Hm).
    destruct Hb as [(m & p & g & Hd & -> & Hn) | [[_ ->] | [_ ->]]];
      [| simpl in Hp, Hm; congruence | contradiction].
    pose proof (decimal_nonneg _ _ _ Hd) as Hnn.
    destruct g as [[a e] |]; [| simpl in Hp, Hm; congruence].
    simpl in Hp, Hm. destruct neg.
    + destruct Hp as [Hp | Hp]; [discriminate |]. right. exists m, p.
      destruct Hs as [[-> _] | [_ X]]; [| discriminate]. split; [exists body; auto |].
      apply (nearest_zero _ _ _ _ Hnn Hn). exact Hp.
    + left. exists m, p. split.
      * exists sign, body. destruct Hs as [[_ X] | [X _]]; [discriminate |]. intuition.
      * destruct Hm as [Hm | Hm]; [discriminate |].
        apply (nearest_at_most m p a e 11796480 (-15) 360 Hnn Hn canon360 eq_refl); [lia | reflexivity | exact Hm].
  - intros [(m & p & (sign & body & Hs & -> & Hd) & Hle) | (m & p & (body & -> & Hd) & Hle)];
      pose proof (decimal_nonneg _ _ _ Hd) as Hnn; destruct (nearest_total m p Hnn) as [g Hn];
      (destruct g as [[a e] |];
       [| exfalso; eapply (nearest_inf_big m p 361 Hnn Hn); [| | | exact Hle]; cbv; congruence]).
    + exists (F32fin false a e). split; [| split].
      * exists sign, false, body. split; [right; tauto |]. split; [reflexivity |]. left.
        exists m, p, (Some (a, e)). auto.
      * left. reflexivity.
      * right. apply (nearest_at_most m p a e 11796480 (-15) 360 Hnn Hn canon360 eq_refl); [lia | reflexivity | exact Hle].
    + exists (F32fin true a e). split; [| split].
      * exists "-", true, body. split; [left; auto |]. split; [reflexivity |]. left.
        exists m, p, (Some (a, e)). auto.
      * right. apply (nearest_zero _ _ _ _ Hnn Hn). exact Hle.
      * left. reflexivity.
Qed.
