(** String lemmas for the laya model: splitting, prefixes, digit strings, u32. *)

From Coq Require Import ZArith NArith List String Ascii Bool Lia.
From Verif Require Import LayaModel LayaSpec.
Import ListNotations.
Local Open Scope string_scope.

Lemma app_nil_r_s : forall s : string, s ++ "" = s.
Proof. induction s; simpl; congruence. Qed.

Lemma app_assoc_s : forall a b c : string, (a ++ b) ++ c = a ++ (b ++ c).
Proof. induction a; intros; simpl; congruence. Qed.

Lemma chars_app : forall a b, chars (a ++ b) = (chars a ++ chars b)%list.
Proof. induction a; intros; simpl; [reflexivity | unfold chars in *; simpl; f_equal; auto]. Qed.

Lemma free_of_app : forall c a b, free_of c (a ++ b) <-> free_of c a /\ free_of c b.
Proof.
  intros c a b. unfold free_of. rewrite chars_app, in_app_iff. tauto.
Qed.

Lemma free_of_nil : forall c, free_of c "".
Proof. intros c H; inversion H. Qed.

Lemma free_of_cons : forall c a s, free_of c (String a s) <-> a <> c /\ free_of c s.
Proof. intros. unfold free_of. simpl. intuition. Qed.

(** ** split_on *)

Fixpoint join (c : ascii) (l : list string) : string :=
  match l with
  | [] => ""
  | [x] => x
  | x :: r => x ++ String c (join c r)
  end.

Lemma join_cons : forall c x y r, join c (x :: y :: r) = x ++ String c (join c (y :: r)).
Proof. reflexivity. Qed.

Lemma split_on_nonempty : forall c s, split_on c s <> [].
Proof.
  intros c s; destruct s; simpl; [discriminate |].
  destruct (Ascii.eqb a c); [discriminate |].
  destruct (split_on c s); discriminate.
Qed.

Lemma split_on_free : forall c s, free_of c s -> split_on c s = [s].
Proof.
  induction s; intros H; simpl; [reflexivity |].
  apply free_of_cons in H. destruct H as [Hne Hf].
  destruct (Ascii.eqb_spec a c); [contradiction |].
  rewrite (IHs Hf). reflexivity.
Qed.

Lemma split_on_app : forall c x y, free_of c x ->
  split_on c (x ++ String c y) = x :: split_on c y.
Proof.
  induction x; intros y H; simpl.
  - rewrite Ascii.eqb_refl. reflexivity.
  - apply free_of_cons in H. destruct H as [Hne Hf].
    destruct (Ascii.eqb_spec a c); [contradiction |].
    rewrite (IHx y Hf). reflexivity.
Qed.

Lemma split_on_join : forall c s, join c (split_on c s) = s.
Proof.
  induction s; simpl; [reflexivity |].
  destruct (Ascii.eqb_spec a c).
  - subst. pose proof (split_on_nonempty c s) as Hn.
    destruct (split_on c s) as [| h t] eqn:E; [contradiction |].
    rewrite join_cons. rewrite IHs. reflexivity.
  - pose proof (split_on_nonempty c s) as Hn.
    destruct (split_on c s) as [| h t] eqn:E; [contradiction |].
    destruct t as [| h' t'].
    + simpl in *. congruence.
    + rewrite join_cons in *. cbn [append]. congruence.
Qed.

Lemma split_on_pieces_free : forall c s, Forall (free_of c) (split_on c s).
Proof.
  induction s; simpl.
  - constructor; [apply free_of_nil | constructor].
  - destruct (Ascii.eqb_spec a c).
    + constructor; [apply free_of_nil | assumption].
    + destruct (split_on c s) as [| h t]; inversion IHs; subst.
      * constructor; [| constructor]. apply free_of_cons; split; [assumption | apply free_of_nil].
      * constructor; [| assumption]. apply free_of_cons; split; assumption.
Qed.

(** ** split_once *)

Lemma split_once_some : forall c s x y,
  split_once c s = Some (x, y) <-> s = x ++ String c y /\ free_of c x.
Proof.
  intros c s; induction s; intros x y; simpl.
  - split; [discriminate |]. intros [H _]. destruct x; discriminate.
  - destruct (Ascii.eqb_spec a c).
    + subst. split.
      * intros H; inversion H; subst. split; [reflexivity | apply free_of_nil].
      * intros [H Hf]. destruct x as [| b x].
        -- simpl in H. inversion H; subst. reflexivity.
        -- simpl in H. inversion H; subst. apply free_of_cons in Hf. destruct Hf; contradiction.
    + destruct (split_once c s) as [[x0 y0] |] eqn:E.
      * split.
        -- intros H; inversion H; subst.
           destruct (proj1 (IHs x0 y) eq_refl) as [H1 H2]. subst.
           split; [reflexivity |]. apply free_of_cons; split; assumption.
        -- intros [H Hf]. destruct x as [| b x]; simpl in H; inversion H; subst.
           ++ contradiction.
           ++ apply free_of_cons in Hf. destruct Hf as [_ Hf].
              assert (Some (x0, y0) = Some (x, y)) as Heq.
              { apply (proj2 (IHs x y)). split; [reflexivity | assumption]. }
              inversion Heq; subst. reflexivity.
      * split; [discriminate |].
        intros [H Hf]. destruct x as [| b x]; simpl in H; inversion H; subst.
        -- contradiction.
        -- apply free_of_cons in Hf. destruct Hf as [_ Hf].
           assert (None = Some (x, y)) as Heq.
           { apply (proj2 (IHs x y)). split; [reflexivity | assumption]. }
           discriminate.
Qed.

Lemma split_once_none : forall c s, split_once c s = None <-> free_of c s.
Proof.
  induction s; simpl.
  - split; intros; [apply free_of_nil | reflexivity].
  - rewrite free_of_cons. destruct (Ascii.eqb_spec a c).
    + split; [discriminate |]. intros [H _]; contradiction.
    + destruct (split_once c s) as [[x y] |].
      * split; [discriminate |]. intros [_ H]. apply IHs in H; discriminate.
      * split; [intros _; split; [assumption | apply IHs; reflexivity] | reflexivity].
Qed.

(** ** strip_prefix *)

Lemma strip_prefix_some : forall p s r, strip_prefix p s = Some r <-> s = p ++ r.
Proof.
  induction p; intros s r; simpl.
  - split; congruence.
  - destruct s as [| b s]; [split; discriminate |].
    destruct (Ascii.eqb_spec a b).
    + subst. rewrite IHp. split; congruence.
    + split; [discriminate |]. congruence.
Qed.

Lemma starts_with_spec : forall p s, starts_with p s = true <-> exists r, s = p ++ r.
Proof.
  intros p s. unfold starts_with. destruct (strip_prefix p s) eqn:E.
  - split; [intros _ | reflexivity]. exists s0. apply strip_prefix_some; assumption.
  - split; [discriminate |]. intros [r H]. apply strip_prefix_some in H. congruence.
Qed.

Lemma ends_with_spec : forall p s, ends_with p s = true <-> exists r, s = r ++ p.
Proof.
  intros p s. induction s; cbn [ends_with].
  - rewrite orb_false_r. rewrite String.eqb_eq. split.
    + intros H; exists "". assumption.
    + intros [r H]. destruct r; [assumption | discriminate].
  - rewrite orb_true_iff, String.eqb_eq, IHs. split.
    + intros [H | [r H]]; [exists ""; assumption | exists (String a r); simpl; congruence].
    + intros [r H]. destruct r as [| b r]; [left; assumption |].
      right. simpl in H. inversion H; subst. exists r. reflexivity.
Qed.

(** ** Digits *)

Lemma digit_value_spec : forall a d,
  digit_value a = Some d <-> is_digit a = true /\ d = digit a.
Proof.
  intros [b0 b1 b2 b3 b4 b5 b6 b7] d.
  destruct b0, b1, b2, b3, b4, b5, b6, b7; cbv;
    (split; [intros H; inversion H; auto | intros [H1 H2]; try discriminate; congruence]).
Qed.

Lemma digit_value_none : forall a, digit_value a = None <-> is_digit a = false.
Proof.
  intros a. destruct (digit_value a) eqn:E.
  - apply digit_value_spec in E. destruct E as [E _]. rewrite E. split; discriminate.
  - destruct (is_digit a) eqn:F; [| tauto].
    assert (digit_value a = Some (digit a)) by (apply digit_value_spec; auto). congruence.
Qed.

Lemma is_digit_range : forall a, is_digit a = true -> (0 <= digit a <= 9)%Z.
Proof.
  intros a H. unfold is_digit, digit in *. apply andb_true_iff in H.
  destruct H as [H1 H2]. apply Z.leb_le in H1. apply Z.leb_le in H2. lia.
Qed.

Lemma digits_fun : forall s v1 v2, digits s v1 -> digits s v2 -> v1 = v2.
Proof.
  induction s as [| c s IH]; intros v1 v2 H1 H2.
  - inversion H1; inversion H2; reflexivity.
  - inversion H1 as [| a1 d1 r1 w1 E1 D1]; inversion H2 as [| a2 d2 r2 w2 E2 D2]; subst.
    rewrite E1 in E2. inversion E2; subst. rewrite (IH _ _ D1 D2). reflexivity.
Qed.

Lemma digits_nonneg : forall s v, digits s v -> (0 <= v)%Z.
Proof.
  induction 1; [lia |].
  apply digit_value_spec in H. destruct H as [H ->]. apply is_digit_range in H.
  pose proof (Z.pow_nonneg 10 (Z.of_nat (String.length r))). nia.
Qed.

Lemma digits_char : forall c s v, digits s v -> In c (chars s) -> is_digit c = true.
Proof.
  induction 1; simpl; intros Hin; [contradiction |].
  destruct Hin as [-> | Hin]; [| auto].
  apply digit_value_spec in H. tauto.
Qed.

Lemma digits_free : forall c s v, digits s v -> is_digit c = false -> free_of c s.
Proof. intros c s v H Hc Hin. rewrite (digits_char _ _ _ H Hin) in Hc. discriminate. Qed.

Lemma pow10_S : forall n, (10 ^ Z.of_nat (S n) = 10 * 10 ^ Z.of_nat n)%Z.
Proof. intros. rewrite Nat2Z.inj_succ, Z.pow_succ_r; lia. Qed.

(** Horner evaluation against positional value. *)
Fixpoint horner (s : string) (acc : Z) : Z :=
  match s with
  | EmptyString => acc
  | String a r => horner r (10 * acc + digit a)
  end.

Lemma horner_digits : forall s v acc, digits s v ->
  horner s acc = (acc * 10 ^ Z.of_nat (String.length s) + v)%Z.
Proof.
  intros s v acc H. revert acc. induction H; intros acc.
  - simpl. lia.
  - cbn [horner String.length]. apply digit_value_spec in H. destruct H as [_ ->].
    rewrite IHdigits, pow10_S. ring.
Qed.

Lemma horner_app : forall a b acc, horner (a ++ b) acc = horner b (horner a acc).
Proof. induction a; intros; simpl; auto. Qed.

Definition all_digits (s : string) : Prop := exists v, digits s v.

Lemma all_digits_cons : forall a r, all_digits (String a r) <-> is_digit a = true /\ all_digits r.
Proof.
  intros a r. split.
  - intros [v H]. inversion H; subst. apply digit_value_spec in H2. split; [tauto | exists v0; assumption].
  - intros [H [v Hr]]. eexists. econstructor; [| exact Hr].
    apply digit_value_spec. split; [assumption | reflexivity].
Qed.

Lemma all_digits_horner : forall s, all_digits s -> digits s (horner s 0).
Proof. intros s [v H]. rewrite (horner_digits _ _ 0 H). simpl. assumption. Qed.

Lemma all_digits_app : forall a b, all_digits (a ++ b) <-> all_digits a /\ all_digits b.
Proof.
  induction a; intros b; cbn [append].
  - split; [intros H; split; [exists 0%Z; constructor | assumption] | tauto].
  - rewrite !all_digits_cons, IHa. tauto.
Qed.

Lemma all_digits_nil : all_digits "".
Proof. exists 0%Z. constructor. Qed.

(** ** u32 *)

Lemma u32_digits_spec : forall s acc n, (0 <= acc < 2 ^ 32)%Z ->
  u32_digits s acc = Some n <-> all_digits s /\ n = horner s acc /\ (n < 2 ^ 32)%Z.
Proof.
  change (2 ^ 32)%Z with 4294967296%Z.
  induction s; intros acc n Hacc; cbn [u32_digits horner].
  - split.
    + intros H; inversion H; subst. split; [apply all_digits_nil | lia].
    + intros [_ [-> _]]. reflexivity.
  - rewrite all_digits_cons. destruct (is_digit a) eqn:Hd.
    2: { split; [discriminate |]. intros [[H _] _]; discriminate. }
    pose proof (is_digit_range _ Hd) as Hr.
    destruct (Z.ltb_spec (10 * acc + digit a) 4294967296) as [Hlt | Hge].
    + rewrite IHs by lia. tauto.
    + split; [discriminate |].
      intros [[_ Hs] [-> Hlt]]. exfalso.
      destruct Hs as [v Hv]. rewrite (horner_digits _ _ _ Hv) in Hlt.
      pose proof (digits_nonneg _ _ Hv).
      assert (1 <= 10 ^ Z.of_nat (String.length s))%Z by (apply (Z.pow_le_mono_r 10 0); lia).
      nia.
Qed.

Lemma parse_u32_spec : forall s n, parse_u32 s = Some n <-> u32_literal s n.
Proof.
  intros s n. unfold u32_literal.
  assert (Hgen : forall ds, u32_digits ds 0 = Some n <-> digits ds n /\ (n < 2 ^ 32)%Z).
  { intros ds. rewrite u32_digits_spec by (cbv; split; congruence). split.
    - intros [H1 [H2 H3]]. split; [| assumption]. subst. apply all_digits_horner; assumption.
    - intros [H1 H2]. split; [exists n; assumption |]. split; [| assumption].
      rewrite (horner_digits _ _ 0 H1). lia. }
  destruct s as [| a s].
  { simpl. split; [discriminate |]. intros (sign & ds & Hs & H & Hne & _).
    destruct Hs; subst; simpl in H; [congruence | discriminate]. }
  destruct (Ascii.ascii_dec a "+") as [-> | Hne].
  - assert (Hp : parse_u32 (String "+" s) = match s with "" => None | _ => u32_digits s 0 end)
      by (destruct s; reflexivity).
    rewrite Hp. clear Hp. split.
    + intros H. exists "+", s. destruct s as [| b s]; [discriminate |].
      apply Hgen in H. destruct H as [H1 H2].
      split; [right; reflexivity |]. split; [reflexivity |]. split; [discriminate |]. tauto.
    + intros (sign & ds & Hs & H & Hd & Hdig & Hlt).
      destruct Hs; subst sign; simpl in H.
      * subst ds. exfalso. apply (digits_char "+" _ _) in Hdig; [discriminate | left; reflexivity].
      * inversion H; subst. destruct ds as [| b ds]; [congruence |].
        apply Hgen. tauto.
  - assert (Hp : parse_u32 (String a s) = u32_digits (String a s) 0).
    { destruct a as [b0 b1 b2 b3 b4 b5 b6 b7].
      destruct b0, b1, b2, b3, b4, b5, b6, b7; try reflexivity. congruence. }
    rewrite Hp, Hgen. clear Hp. split.
    + intros [H1 H2]. exists "", (String a s).
      split; [left; reflexivity |]. split; [reflexivity |]. split; [discriminate |]. tauto.
    + intros (sign & ds & Hs & H & Hd & Hdig & Hlt).
      destruct Hs; subst sign; simpl in H; [subst; tauto |].
      inversion H; subst. congruence.
Qed.

Lemma u32_literal_fun : forall s a b, u32_literal s a -> u32_literal s b -> a = b.
Proof. intros s a b Ha Hb. apply parse_u32_spec in Ha. apply parse_u32_spec in Hb. congruence. Qed.

Lemma u32_literal_char : forall s n c, u32_literal s n -> In c (chars s) ->
  c = "+"%char \/ is_digit c = true.
Proof.
  intros s n c (sign & ds & Hs & -> & _ & Hd & _) Hin.
  rewrite chars_app, in_app_iff in Hin. destruct Hin as [Hin | Hin].
  - destruct Hs; subst; simpl in Hin; [contradiction | left; intuition].
  - right. eapply digits_char; eassumption.
Qed.

Lemma u32_literal_free : forall s n c, u32_literal s n -> c <> "+"%char -> is_digit c = false ->
  free_of c s.
Proof.
  intros s n c H H1 H2 Hin. destruct (u32_literal_char _ _ _ H Hin); [contradiction | congruence].
Qed.

Lemma u32_literal_nonempty : forall s n, u32_literal s n -> s <> "".
Proof.
  intros s n (sign & ds & _ & -> & Hne & _) H. destruct sign; simpl in H; [contradiction | discriminate].
Qed.
