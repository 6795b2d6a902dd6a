(** Region, size, rotation, quality and format parsers: exact languages. *)

From Coq Require Import ZArith NArith List String Ascii Bool Lia.
From Verif Require Import LayaModel LayaSpec LayaProofsStr LayaProofsF32 LayaProofsParse.
Import ListNotations.
Local Open Scope string_scope.

(** ** Comma-separated pieces *)

Lemma concat_join : forall l, String.concat "," l = join "," l.
Proof.
  induction l as [| x l IH]; [reflexivity |].
  destruct l as [| y l]; [reflexivity |].
  rewrite join_cons. change (String.concat "," (x :: y :: l)) with (x ++ "," ++ String.concat "," (y :: l)).
  rewrite IH. reflexivity.
Qed.

Lemma split_on_of_join : forall c l, l <> [] -> Forall (free_of c) l -> split_on c (join c l) = l.
Proof.
  induction l as [| x l IH]; intros Hne Hf; [congruence |].
  inversion Hf; subst. destruct l as [| y l].
  - simpl. apply split_on_free; assumption.
  - rewrite join_cons, split_on_app by assumption. rewrite IH; [reflexivity | discriminate | assumption].
Qed.

Lemma comma_pieces_spec : forall t l, comma_pieces t l <-> split_on "," t = l.
Proof.
  intros t l. unfold comma_pieces. rewrite concat_join. split.
  - intros (H1 & H2 & ->). apply split_on_of_join; assumption.
  - intros <-. split; [apply split_on_nonempty |]. split; [apply split_on_pieces_free |].
    symmetry. apply split_on_join.
Qed.

(** ** Region *)

Section Region.
Variable show : f32 -> string.

Definition u32_ok (i : nat) (v : Z) : Prop := (i <= 1)%nat \/ (0 < v)%Z.

Lemma validate_u32_ok : forall v i w, validate_u32 v i = Ok w <-> w = v /\ u32_ok i v.
Proof.
  intros v i w. unfold validate_u32, u32_ok.
  destruct (Nat.leb_spec i 1), (Z.ltb_spec 0 v); cbn [orb]; split; intros H';
    solve [discriminate H'
          | inversion H'; subst; split; [reflexivity | lia]
          | destruct H' as [-> H']; reflexivity
          | destruct H' as [E H']; exfalso; lia].
Qed.

Lemma validate_u32_err : forall v i e, (0 <= v)%Z -> validate_u32 v i = Err e <->
  (2 <= i)%nat /\ v = 0%Z /\ e = RegionSelectorOutOfBounds "0" i.
Proof.
  intros v i e Hv. unfold validate_u32.
  destruct (Nat.leb_spec i 1), (Z.ltb_spec 0 v); cbn [orb]; split; intros H';
    try discriminate; try (exfalso; lia).
  - inversion H'; subst. unfold zero_to_string. repeat split; lia.
  - destruct H' as (_ & _ & ->). reflexivity.
Qed.

Lemma validate_f32_ok : forall v i w, validate_f32 show v i = Ok w <-> w = v /\ f32_positive v.
Proof.
  intros v i w. unfold validate_f32. rewrite <- f32_gt0_spec.
  destruct (f32_gt0 v); split; intros H'; [inversion H'; auto | destruct H'; subst; reflexivity
    | discriminate | destruct H'; discriminate].
Qed.

Lemma validate_f32_err : forall v i e, validate_f32 show v i = Err e <->
  ~ f32_positive v /\ e = RegionPercentageOutOfBounds (show v) i.
Proof.
  intros v i e. unfold validate_f32. rewrite <- f32_gt0_spec.
  destruct (f32_gt0 v); split; intros H'.
  - discriminate.
  - destruct H' as [H' _]; congruence.
  - inversion H'; subst. split; [congruence | reflexivity].
  - destruct H' as [_ ->]. reflexivity.
Qed.

Section Loop.
Context {T : Type}.
Variable parse : string -> option T.
Variable validate : T -> nat -> result T parse_error.
Variable good : nat -> string -> Prop.
Variable bad : nat -> string -> parse_error -> Prop.

Definition step (i : nat) (s : string) : result T parse_error :=
  match parse s with
  | None => Err (RegionSelectorUnparsable s i)
  | Some v => validate v i
  end.

Hypothesis good_spec : forall i s, good i s <-> exists v, step i s = Ok v.
Hypothesis bad_spec : forall i s e, bad i s e <-> step i s = Err e.

Lemma loop_unfold : forall input s rest i n,
  region_selectors_loop parse validate input (s :: rest) i (S n) =
  match step i s with
  | Err e => Err e
  | Ok v => match region_selectors_loop parse validate input rest (S i) n with
            | Ok l => Ok (v :: l)
            | Err e => Err e
            end
  end.
Proof. intros. simpl. unfold step. destruct (parse s); [| reflexivity]. destruct (validate t i); reflexivity. Qed.

Lemma loop_err : forall n parts i input e,
  region_selectors_loop parse validate input parts i n = Err e <->
  ((exists j p, nth_error parts j = Some p /\ (j < n)%nat /\
      (forall k q, (k < j)%nat -> nth_error parts k = Some q -> good (i + k) q) /\
      bad (i + j) p e) \/
   (List.length parts <> n /\
      (forall k q, (k < n)%nat -> nth_error parts k = Some q -> good (i + k) q) /\
      e = RegionSelectorCount input)).
Proof.
  induction n; intros parts i input e.
  - simpl. destruct parts as [| s rest].
    + split; [discriminate |]. intros [(j & p & _ & H & _) | [H _]]; [lia |]. simpl in H; congruence.
    + split.
      * intros H; inversion H; subst. right. split; [discriminate |]. split; [intros; lia | reflexivity].
      * intros [(j & p & _ & H & _) | (_ & _ & ->)]; [lia | reflexivity].
  - destruct parts as [| s rest].
    + simpl. split.
      * intros H; inversion H; subst. right. split; [discriminate |].
        split; [intros k q _ H'; destruct k; discriminate | reflexivity].
      * intros [(j & p & H & _) | (_ & _ & ->)]; [destruct j; discriminate | reflexivity].
    + rewrite loop_unfold. destruct (step i s) as [v | e0] eqn:Es.
      * assert (Hg : good i s) by (apply good_spec; eauto).
        assert (Hrec := IHn rest (S i) input e).
        destruct (region_selectors_loop parse validate input rest (S i) n) as [l | e1] eqn:El.
        -- split; [discriminate |]. intros H. exfalso.
           assert (Hx : Ok l = Err e); [| discriminate Hx]. apply Hrec. clear Hrec.
           destruct H as [(j & p & H1 & H2 & H3 & H4) | (H1 & H2 & H3)].
           ++ destruct j as [| j].
              { simpl in H1. inversion H1; subst. rewrite Nat.add_0_r in H4. apply bad_spec in H4. congruence. }
              left. exists j, p. split; [exact H1 |]. split; [lia |].
              split; [| replace (S i + j)%nat with (i + S j)%nat by lia; exact H4].
              intros k q Hk Hq. replace (S i + k)%nat with (i + S k)%nat by lia. apply H3; [lia | exact Hq].
           ++ right. split; [simpl in H1; congruence |]. split; [| exact H3].
              intros k q Hk Hq. replace (S i + k)%nat with (i + S k)%nat by lia. apply H2; [lia | exact Hq].
        -- transitivity (Err (A := list T) e1 = Err e).
           { split; intros H; inversion H; reflexivity. }
           rewrite Hrec. clear Hrec IHn El. split.
           ++ intros [(j & p & H1 & H2 & H3 & H4) | (H1 & H2 & H3)].
              ** left. exists (S j), p. split; [exact H1 |]. split; [lia |].
                 split; [| replace (i + S j)%nat with (S i + j)%nat by lia; exact H4].
                 intros k q Hk Hq. destruct k as [| k].
                 { simpl in Hq. inversion Hq; subst. rewrite Nat.add_0_r. assumption. }
                 replace (i + S k)%nat with (S i + k)%nat by lia. apply H3; [lia | exact Hq].
              ** right. split; [simpl; lia |]. split; [| exact H3].
                 intros k q Hk Hq. destruct k as [| k].
                 { simpl in Hq. inversion Hq; subst. rewrite Nat.add_0_r. assumption. }
                 replace (i + S k)%nat with (S i + k)%nat by lia. apply H2; [lia | exact Hq].
           ++ intros [(j & p & H1 & H2 & H3 & H4) | (H1 & H2 & H3)].
              ** destruct j as [| j].
                 { simpl in H1. inversion H1; subst. rewrite Nat.add_0_r in H4. apply bad_spec in H4. congruence. }
                 left. exists j, p. split; [exact H1 |]. split; [lia |].
                 split; [| replace (S i + j)%nat with (i + S j)%nat by lia; exact H4].
                 intros k q Hk Hq. replace (S i + k)%nat with (i + S k)%nat by lia. apply H3; [lia | exact Hq].
              ** right. split; [simpl in H1; congruence |]. split; [| exact H3].
                 intros k q Hk Hq. replace (S i + k)%nat with (i + S k)%nat by lia. apply H2; [lia | exact Hq].
      * split.
        -- intros H; inversion H; subst. left. exists 0%nat, s. split; [reflexivity |]. split; [lia |].
           split; [intros; lia |]. rewrite Nat.add_0_r. apply bad_spec. assumption.
        -- intros [(j & p & H1 & H2 & H3 & H4) | (H1 & H2 & H3)].
           ++ destruct j as [| j].
              { simpl in H1. inversion H1; subst. rewrite Nat.add_0_r in H4. apply bad_spec in H4. congruence. }
              exfalso. assert (Hg : good (i + 0) s) by (apply H3; [lia | reflexivity]).
              rewrite Nat.add_0_r in Hg. apply good_spec in Hg. destruct Hg as [v Hv]. congruence.
           ++ exfalso. assert (Hg : good (i + 0) s) by (apply H2; [lia | reflexivity]).
              rewrite Nat.add_0_r in Hg. apply good_spec in Hg. destruct Hg as [v Hv]. congruence.
Qed.

Lemma loop_ok4 : forall parts input l,
  region_selectors_loop parse validate input parts 0 4 = Ok l <->
  exists s0 s1 s2 s3 v0 v1 v2 v3,
    parts = [s0; s1; s2; s3] /\ l = [v0; v1; v2; v3] /\
    step 0 s0 = Ok v0 /\ step 1 s1 = Ok v1 /\ step 2 s2 = Ok v2 /\ step 3 s3 = Ok v3.
Proof.
  intros parts input l. split.
  - intros H.
    destruct parts as [| s0 [| s1 [| s2 [| s3 rest]]]];
      repeat rewrite loop_unfold in H;
      repeat (match type of H with
              | context [step ?i ?s] => destruct (step i s) eqn:?; [| discriminate H]
              end);
      simpl in H; try discriminate H.
    destruct rest; [| discriminate H]. inversion H; subst.
    exists s0, s1, s2, s3, a, a0, a1, a2. repeat split; assumption.
  - intros (s0 & s1 & s2 & s3 & v0 & v1 & v2 & v3 & -> & -> & H0 & H1 & H2 & H3).
    rewrite !loop_unfold, H0, H1, H2, H3. reflexivity.
Qed.
End Loop.

Lemma step_u32_ok : forall i s v, step parse_u32 validate_u32 i s = Ok v <->
  u32_literal s v /\ u32_ok i v.
Proof.
  intros i s v. unfold step. destruct (parse_u32 s) as [w |] eqn:E.
  - rewrite validate_u32_ok. split.
    + intros [-> H]. split; [apply parse_u32_spec; assumption | assumption].
    + intros [H1 H2]. apply parse_u32_spec in H1. assert (w = v) by congruence. subst. auto.
  - split; [discriminate |]. intros [H _]. apply parse_u32_spec in H. congruence.
Qed.

Lemma step_f32_ok : forall i s v, step parse_f32 (validate_f32 show) i s = Ok v <->
  f32_literal s v /\ f32_positive v.
Proof.
  intros i s v. unfold step. destruct (parse_f32 s) as [w |] eqn:E.
  - rewrite validate_f32_ok. split.
    + intros [-> H]. split; [apply parse_f32_spec; assumption | assumption].
    + intros [H1 H2]. apply parse_f32_spec in H1. assert (w = v) by congruence. subst. auto.
  - split; [discriminate |]. intros [H _]. apply parse_f32_spec in H. congruence.
Qed.

Lemma u32_literal_nonneg : forall s n, u32_literal s n -> (0 <= n < 2 ^ 32)%Z.
Proof.
  intros s n (sign & ds & _ & _ & _ & H & Hlt). split; [eapply digits_nonneg; eassumption | assumption].
Qed.

Lemma step_u32_err : forall i s e, step parse_u32 validate_u32 i s = Err e <->
  selector_error show false i s e.
Proof.
  intros i s e. unfold step, selector_error. destruct (parse_u32 s) as [w |] eqn:E.
  - pose proof (proj1 (parse_u32_spec s w) E) as Hl.
    rewrite validate_u32_err by (apply u32_literal_nonneg in Hl; lia). split.
    + intros (H1 & -> & ->). right. auto.
    + intros [[H _] | (H1 & H2 & ->)]; [exfalso; exact (H _ Hl) |].
      apply parse_u32_spec in H1. assert (w = 0%Z) by congruence. auto.
  - split.
    + intros H; inversion H; subst. left. split; [| reflexivity].
      intros n Hn. apply parse_u32_spec in Hn. congruence.
    + intros [[_ ->] | (H1 & _)]; [reflexivity |]. apply parse_u32_spec in H1. congruence.
Qed.

Lemma step_f32_err : forall i s e, step parse_f32 (validate_f32 show) i s = Err e <->
  selector_error show true i s e.
Proof.
  intros i s e. unfold step, selector_error. destruct (parse_f32 s) as [w |] eqn:E.
  - pose proof (proj1 (parse_f32_spec s w) E) as Hl.
    rewrite validate_f32_err. split.
    + intros (H1 & ->). right. exists w. auto.
    + intros [[H _] | (f & H1 & H2 & ->)]; [exfalso; exact (H _ Hl) |].
      apply parse_f32_spec in H1. assert (w = f) by congruence. subst. auto.
  - split.
    + intros H; inversion H; subst. left. split; [| reflexivity].
      intros n Hn. apply parse_f32_spec in Hn. congruence.
    + intros [[_ ->] | (f & H1 & _)]; [reflexivity |]. apply parse_f32_spec in H1. congruence.
Qed.

Lemma selectors_err_u32 : forall t e,
  parse_region_selectors parse_u32 validate_u32 t = Err e <-> region_fault show false t e.
Proof.
  intros t e. unfold parse_region_selectors.
  rewrite (loop_err parse_u32 validate_u32 (good_selector false) (selector_error show false)).
  - unfold region_fault. split.
    + intros H. exists (split_on "," t). split; [apply comma_pieces_spec; reflexivity |]. exact H.
    + intros (l & Hl & H). apply comma_pieces_spec in Hl. rewrite Hl. exact H.
  - intros i s. unfold good_selector. split.
    + intros (n & H1 & H2). exists n. apply step_u32_ok. split; assumption.
    + intros (n & H). apply step_u32_ok in H. exists n. exact H.
  - intros i s e0. symmetry. apply step_u32_err.
Qed.

Lemma selectors_err_f32 : forall t e,
  parse_region_selectors parse_f32 (validate_f32 show) t = Err e <-> region_fault show true t e.
Proof.
  intros t e. unfold parse_region_selectors.
  rewrite (loop_err parse_f32 (validate_f32 show) (good_selector true) (selector_error show true)).
  - unfold region_fault. split.
    + intros H. exists (split_on "," t). split; [apply comma_pieces_spec; reflexivity |]. exact H.
    + intros (l & Hl & H). apply comma_pieces_spec in Hl. rewrite Hl. exact H.
  - intros i s. unfold good_selector. split.
    + intros (n & H1 & H2). exists n. apply step_f32_ok. split; assumption.
    + intros (n & H). apply step_f32_ok in H. exists n. exact H.
  - intros i s e0. symmetry. apply step_f32_err.
Qed.

Lemma pieces4 : forall t s0 s1 s2 s3,
  split_on "," t = [s0; s1; s2; s3] <->
  t = s0 ++ "," ++ s1 ++ "," ++ s2 ++ "," ++ s3 /\
  free_of "," s0 /\ free_of "," s1 /\ free_of "," s2 /\ free_of "," s3.
Proof.
  intros. rewrite <- comma_pieces_spec. unfold comma_pieces. split.
  - intros (_ & Hf & ->). split; [reflexivity |].
    inversion Hf; subst. inversion H2; subst. inversion H4; subst. inversion H6; subst. auto.
  - intros (-> & H0 & H1 & H2 & H3). split; [discriminate |]. split; [| reflexivity].
    repeat constructor; assumption.
Qed.

Lemma u32_comma_free : forall s n, u32_literal s n -> free_of "," s.
Proof. intros s n H. eapply u32_literal_free; [exact H | discriminate | reflexivity]. Qed.

Lemma f32_comma_free : forall s n, f32_literal s n -> free_of "," s.
Proof. intros s n H. eapply f32_literal_free; [exact H | exact comma_not_float]. Qed.

Lemma u32_head : forall a s n, u32_literal (String a s) n -> a = "+"%char \/ is_digit a = true.
Proof. intros. eapply u32_literal_char; [eassumption | left; reflexivity]. Qed.

Lemma selectors_ok_u32 : forall t l,
  parse_region_selectors parse_u32 validate_u32 t = Ok l <->
  exists sx sy sw sh x y w h, l = [x; y; w; h] /\
        t = sx ++ "," ++ sy ++ "," ++ sw ++ "," ++ sh /\
        u32_literal sx x /\ u32_literal sy y /\ u32_literal sw w /\ u32_literal sh h /\
        (0 < w)%Z /\ (0 < h)%Z.
Proof.
  intros t l. unfold parse_region_selectors. rewrite loop_ok4. split.
  - intros (s0 & s1 & s2 & s3 & v0 & v1 & v2 & v3 & Hp & -> & H0 & H1 & H2 & H3).
    apply pieces4 in Hp. destruct Hp as [-> _].
    apply step_u32_ok in H0, H1, H2, H3. unfold u32_ok in *.
    exists s0, s1, s2, s3, v0, v1, v2, v3. intuition; lia.
  - intros (s0 & s1 & s2 & s3 & v0 & v1 & v2 & v3 & -> & -> & H0 & H1 & H2 & H3 & H4 & H5).
    exists s0, s1, s2, s3, v0, v1, v2, v3. split.
    { apply pieces4. split; [reflexivity |]. split; [| split; [| split]]; eapply u32_comma_free; eassumption. }
    split; [reflexivity |]. rewrite !step_u32_ok. unfold u32_ok. intuition lia.
Qed.

Lemma selectors_ok_f32 : forall t l,
  parse_region_selectors parse_f32 (validate_f32 show) t = Ok l <->
  exists sx sy sw sh x y w h, l = [x; y; w; h] /\
        t = sx ++ "," ++ sy ++ "," ++ sw ++ "," ++ sh /\
        f32_literal sx x /\ f32_literal sy y /\ f32_literal sw w /\ f32_literal sh h /\
        f32_positive x /\ f32_positive y /\ f32_positive w /\ f32_positive h.
Proof.
  intros t l. unfold parse_region_selectors. rewrite loop_ok4. split.
  - intros (s0 & s1 & s2 & s3 & v0 & v1 & v2 & v3 & Hp & -> & H0 & H1 & H2 & H3).
    apply pieces4 in Hp. destruct Hp as [-> _].
    apply step_f32_ok in H0, H1, H2, H3.
    exists s0, s1, s2, s3, v0, v1, v2, v3. intuition.
  - intros (s0 & s1 & s2 & s3 & v0 & v1 & v2 & v3 & -> & -> & H0 & H1 & H2 & H3 & H4 & H5 & H6 & H7).
    exists s0, s1, s2, s3, v0, v1, v2, v3. split.
    { apply pieces4. split; [reflexivity |]. split; [| split; [| split]]; eapply f32_comma_free; eassumption. }
    split; [reflexivity |]. rewrite !step_f32_ok. intuition.
Qed.

Lemma u32_app_head : forall s n t, u32_literal s n ->
  exists a r, s ++ t = String a r /\ (a = "+"%char \/ is_digit a = true).
Proof.
  intros s n t H. destruct s as [| a s]; [apply u32_literal_nonempty in H; congruence |].
  exists a, (s ++ t). split; [reflexivity |]. eapply u32_head; eassumption.
Qed.

Lemma absolute_head : forall s x y w h, region_text s (Absolute x y w h) ->
  exists a r, s = String a r /\ (a = "+"%char \/ is_digit a = true).
Proof.
  intros s x y w h (a & b & c & d & -> & Ha & _). exact (u32_app_head _ _ _ Ha).
Qed.

Lemma absolute_not : forall s x y w h c r, region_text s (Absolute x y w h) ->
  s = String c r -> c <> "+"%char -> is_digit c = false -> False.
Proof.
  intros s x y w h c r H E H1 H2. destruct (absolute_head _ _ _ _ _ H) as (a & r' & E' & Ha).
  rewrite E in E'. inversion E'; subst. destruct Ha; congruence.
Qed.

Lemma parse_region_ok : forall s r, parse_region show s = Ok r <-> region_text s r.
Proof.
  intros s r. unfold parse_region.
  destruct (String.eqb_spec s "full") as [-> | N1].
  { split; [intros H; inversion H; reflexivity |].
    destruct r; intros H; [reflexivity | discriminate | |].
    - exfalso. eapply absolute_not; [exact H | reflexivity | discriminate | reflexivity].
    - destruct H as (a & b & c & d & H & _). discriminate. }
  destruct (String.eqb_spec s "square") as [-> | N2].
  { split; [intros H; inversion H; reflexivity |].
    destruct r; intros H; [discriminate | reflexivity | |].
    - exfalso. eapply absolute_not; [exact H | reflexivity | discriminate | reflexivity].
    - destruct H as (a & b & c & d & H & _). discriminate. }
  destruct (strip_prefix "pct:" s) as [t |] eqn:E.
  - apply strip_prefix_some in E. subst s.
    destruct (parse_region_selectors parse_f32 (validate_f32 show) t) as [l | e] eqn:Es.
    + apply selectors_ok_f32 in Es.
      destruct Es as (a & b & c & d & x & y & w & h & -> & -> & Es). split.
      * intros H; inversion H; subst. exists a, b, c, d. split; [reflexivity | exact Es].
      * destruct r; intros H; [discriminate | discriminate | |].
        -- exfalso. eapply absolute_not; [exact H | reflexivity | discriminate | reflexivity].
        -- destruct H as (a' & b' & c' & d' & H & H').
           inversion H as [H1]. clear H.
           destruct Es as (E1 & E2 & E3 & E4 & _), H' as (F1 & F2 & F3 & F4 & _).
           assert (P : split_on "," (a ++ "," ++ b ++ "," ++ c ++ "," ++ d) = [a; b; c; d]).
           { apply pieces4. split; [reflexivity |]. split; [| split; [| split]]; eapply f32_comma_free; eassumption. }
           assert (P' : split_on "," (a' ++ "," ++ b' ++ "," ++ c' ++ "," ++ d') = [a'; b'; c'; d']).
           { apply pieces4. split; [reflexivity |]. split; [| split; [| split]]; eapply f32_comma_free; eassumption. }
           cbn [append] in P, P'. rewrite H1, P' in P. inversion P; subst.
           rewrite (f32_literal_fun _ _ _ E1 F1), (f32_literal_fun _ _ _ E2 F2),
             (f32_literal_fun _ _ _ E3 F3), (f32_literal_fun _ _ _ E4 F4). reflexivity.
    + split; [discriminate |].
      destruct r; intros H; [congruence | congruence | |].
      * exfalso. eapply absolute_not; [exact H | reflexivity | discriminate | reflexivity].
      * destruct H as (a' & b' & c' & d' & H & H'). inversion H as [H1]. exfalso.
        assert (Hok : parse_region_selectors parse_f32 (validate_f32 show) t = Ok [x; y; width; height]).
        { apply selectors_ok_f32. exists a', b', c', d', x, y, width, height. auto. }
        rewrite Hok in Es. discriminate.
  - apply strip_prefix_none in E.
    destruct (parse_region_selectors parse_u32 validate_u32 s) as [l | e] eqn:Es.
    + pose proof Es as Es'. apply selectors_ok_u32 in Es.
      destruct Es as (a & b & c & d & x & y & w & h & -> & -> & Es). split.
      * intros H; inversion H; subst. exists a, b, c, d. split; [reflexivity | exact Es].
      * destruct r; intros H; [congruence | congruence | |].
        -- destruct H as (a' & b' & c' & d' & H & H').
           assert (Hok : parse_region_selectors parse_u32 validate_u32
                     (a ++ "," ++ b ++ "," ++ c ++ "," ++ d) = Ok [x0; y0; width; height]).
           { apply selectors_ok_u32. exists a', b', c', d', x0, y0, width, height. auto. }
           rewrite Hok in Es'. inversion Es'; subst. reflexivity.
        -- destruct H as (a' & b' & c' & d' & H & _). exfalso. apply E. eexists; exact H.
    + split; [discriminate |].
      destruct r; intros H; [congruence | congruence | |].
      * destruct H as (a' & b' & c' & d' & H & H'). exfalso.
        assert (Hok : parse_region_selectors parse_u32 validate_u32 s = Ok [x; y; width; height]).
        { apply selectors_ok_u32. exists a', b', c', d', x, y, width, height. auto. }
        rewrite Hok in Es. discriminate.
      * destruct H as (a' & b' & c' & d' & H & _). exfalso. apply E. eexists; exact H.
Qed.

Lemma parse_region_err : forall s e, parse_region show s = Err e <->
  s <> "full" /\ s <> "square" /\
  ((exists t, s = "pct:" ++ t /\ region_fault show true t e) \/
   ((~ exists t, s = "pct:" ++ t) /\ region_fault show false s e)).
Proof.
  intros s e. unfold parse_region.
  destruct (String.eqb_spec s "full") as [-> | N1].
  { split; [discriminate |]. intros (H & _). congruence. }
  destruct (String.eqb_spec s "square") as [-> | N2].
  { split; [discriminate |]. intros (_ & H & _). congruence. }
  destruct (strip_prefix "pct:" s) as [t |] eqn:E.
  - apply strip_prefix_some in E. subst s.
    transitivity (region_fault show true t e).
    + rewrite <- selectors_err_f32.
      destruct (parse_region_selectors parse_f32 (validate_f32 show) t) as [l | e0] eqn:Es.
      * apply selectors_ok_f32 in Es.
        destruct Es as (a & b & c & d & x & y & w & h & -> & _). split; discriminate.
      * split; intros H; inversion H; reflexivity.
    + split.
      * intros H. split; [assumption |]. split; [assumption |]. left. eauto.
      * intros (_ & _ & [(t' & H1 & H2) | [H _]]).
        -- inversion H1; subst. assumption.
        -- exfalso. apply H. eauto.
  - apply strip_prefix_none in E.
    transitivity (region_fault show false s e).
    + rewrite <- selectors_err_u32.
      destruct (parse_region_selectors parse_u32 validate_u32 s) as [l | e0] eqn:Es.
      * apply selectors_ok_u32 in Es.
        destruct Es as (a & b & c & d & x & y & w & h & -> & _). split; discriminate.
      * split; intros H; inversion H; reflexivity.
    + split.
      * intros H. split; [assumption |]. split; [assumption |]. right. auto.
      * intros (_ & _ & [(t' & H1 & H2) | [_ H]]); [exfalso; apply E; eauto | assumption].
Qed.
End Region.

(** ** Size *)

Definition head_not (c : ascii) (s : string) : Prop := forall r, s <> String c r.

Lemma strip_head_not : forall c p s, head_not c s -> strip_prefix (String c p) s = None.
Proof. intros c p s H. apply strip_prefix_none. intros [r E]. exact (H (p ++ r) E). Qed.

Lemma dim_head_not : forall c s o t, optional_dimension_text s o ->
  c <> "+"%char -> is_digit c = false -> c <> ","%char -> head_not c (s ++ "," ++ t).
Proof.
  intros c s o t H H1 H2 H3 r E. destruct o as [n |]; simpl in H.
  - destruct H as [H _]. destruct (u32_app_head _ _ ("," ++ t) H) as (a & r' & E' & Hh).
    rewrite E in E'. inversion E'; subst. destruct Hh; congruence.
  - subst s. cbn [append] in E. inversion E; congruence.
Qed.

Lemma scale_head_not : forall up s sc, scale_text up s sc -> head_not "^" s.
Proof.
  intros up s sc H. destruct sc; simpl in H.
  - subst s. intros r E; discriminate.
  - destruct H as (t & -> & _). intros r E; discriminate.
  - destruct H as (sw & sh & -> & _ & Hw & _). eapply dim_head_not; [exact Hw | discriminate | reflexivity | discriminate].
  - destruct H as (sw & sh & -> & _). intros r E; discriminate.
Qed.

Lemma parse_scale_px_ok : forall s n, parse_scale_px s = Ok n <-> dimension_text s n.
Proof.
  intros s n. unfold parse_scale_px, dimension_text. destruct (parse_u32 s) as [v |] eqn:E.
  - pose proof (proj1 (parse_u32_spec s v) E) as Hl. pose proof (u32_literal_nonneg _ _ Hl).
    destruct (Z.eqb_spec v 0) as [-> | N].
    + split; [discriminate |]. intros [H1 H2]. rewrite (u32_literal_fun _ _ _ H1 Hl) in H2. lia.
    + split.
      * intros H1; inversion H1; subst. split; [assumption | lia].
      * intros [H1 _]. rewrite (u32_literal_fun _ _ _ H1 Hl). reflexivity.
  - split; [discriminate |]. intros [H _]. apply parse_u32_spec in H. congruence.
Qed.

Lemma parse_opt_px_ok : forall s o, parse_opt_px s = Ok o <-> optional_dimension_text s o.
Proof.
  intros s o. unfold parse_opt_px. destruct s as [| a r].
  - split.
    + intros H; inversion H. reflexivity.
    + destruct o as [n |]; simpl; intros H; [| reflexivity].
      destruct H as [H _]. apply u32_literal_nonempty in H. congruence.
  - destruct (parse_scale_px (String a r)) as [v | e] eqn:E.
    + split.
      * intros H; inversion H; subst. simpl. apply parse_scale_px_ok. assumption.
      * destruct o as [n |]; simpl; intros H; [| discriminate].
        apply parse_scale_px_ok in H. congruence.
    + split; [discriminate |]. destruct o as [n |]; simpl; intros H; [| discriminate].
      apply parse_scale_px_ok in H. congruence.
Qed.

Lemma parse_scale_percent_ok : forall t up z, parse_scale_percent t up = Ok z <->
  exists f, z = mkSize (ScalePercentage f) up /\ f32_literal t f /\ f32_positive f /\
            (up = true \/ f32_at_most f 100).
Proof.
  intros t up z. unfold parse_scale_percent. destruct (parse_f32 t) as [v |] eqn:E.
  - pose proof (proj1 (parse_f32_spec t v) E) as Hl.
    destruct (f32_gt0 v && (f32_le_int v 100 || up)) eqn:Ec.
    + apply andb_true_iff in Ec. rewrite orb_true_iff, f32_gt0_spec, f32_le_int_spec in Ec
        by (eapply f32_literal_canonical; eassumption).
      destruct Ec as [Hp Hc]. split.
      * intros H; inversion H; subst. exists v. intuition.
      * intros (f & -> & H1 & _). rewrite (f32_literal_fun _ _ _ H1 Hl). reflexivity.
    + split; [discriminate |]. intros (f & -> & H1 & H2 & H3). exfalso.
      rewrite (f32_literal_fun _ _ _ H1 Hl) in *. clear f H1.
      assert (f32_gt0 v && (f32_le_int v 100 || up) = true); [| congruence].
      rewrite andb_true_iff, orb_true_iff, f32_gt0_spec, f32_le_int_spec
        by (eapply f32_literal_canonical; eassumption). tauto.
  - split; [discriminate |]. intros (f & _ & H & _). apply parse_f32_spec in H. congruence.
Qed.

Definition parse_scale (up : bool) (s : string) : result size parse_error :=
  if String.eqb s "max" then Ok (mkSize Max up)
  else match strip_prefix "pct:" s with
  | Some p => parse_scale_percent p up
  | None =>
      let '(preserve, s) := match strip_prefix "!" s with Some r => (true, r) | None => (false, s) end in
      if String.eqb s "," then Err (SizeMissingDimensions s)
      else match split_once "," s with
      | None => Err (SizeMissingComma s)
      | Some (width, height) =>
          if preserve then
            match parse_scale_px width with
            | Err e => Err e
            | Ok w => match parse_scale_px height with
                      | Err e => Err e
                      | Ok h => Ok (mkSize (AspectPreserving w h) up)
                      end
            end
          else
            match parse_opt_px width with
            | Err e => Err e
            | Ok w => match parse_opt_px height with
                      | Err e => Err e
                      | Ok h => Ok (mkSize (Fixed w h) up)
                      end
            end
      end
  end.

Lemma opt_dim_free : forall s o, optional_dimension_text s o -> free_of "," s.
Proof.
  intros s [n |] H; simpl in H; [destruct H; eapply u32_comma_free; eassumption | subst; apply free_of_nil].
Qed.

Lemma parse_scale_ok : forall up s z, parse_scale up s = Ok z <->
  upscale z = up /\ scale_text up s (size_scale z).
Proof.
  intros up s z. split.
  - unfold parse_scale. destruct (String.eqb_spec s "max") as [-> | N].
    { intros H; inversion H; subst. split; reflexivity. }
    destruct (strip_prefix "pct:" s) as [t |] eqn:E.
    { apply strip_prefix_some in E. subst s. intros H.
      apply parse_scale_percent_ok in H. destruct H as (f & -> & H).
      split; [reflexivity |]. simpl. exists t. split; [reflexivity | exact H]. }
    destruct (strip_prefix "!" s) as [t |] eqn:E2.
    + apply strip_prefix_some in E2. subst s.
      destruct (String.eqb_spec t ","); [discriminate |].
      destruct (split_once "," t) as [[sw sh] |] eqn:E3; [| discriminate].
      apply split_once_some in E3. destruct E3 as [-> _].
      destruct (parse_scale_px sw) as [w | e] eqn:Ew; [| discriminate].
      destruct (parse_scale_px sh) as [h | e] eqn:Eh; [| discriminate].
      intros H; inversion H; subst. split; [reflexivity |]. simpl.
      exists sw, sh. split; [reflexivity |]. split; apply parse_scale_px_ok; assumption.
    + destruct (String.eqb_spec s ",") as [| Nc]; [discriminate |].
      destruct (split_once "," s) as [[sw sh] |] eqn:E3; [| discriminate].
      apply split_once_some in E3. destruct E3 as [-> _].
      destruct (parse_opt_px sw) as [w | e] eqn:Ew; [| discriminate].
      destruct (parse_opt_px sh) as [h | e] eqn:Eh; [| discriminate].
      apply parse_opt_px_ok in Ew. apply parse_opt_px_ok in Eh.
      intros H; inversion H; subst. split; [reflexivity |]. simpl.
      exists sw, sh. split; [reflexivity |]. split; [| split; assumption].
      destruct w; [left; discriminate |]. destruct h; [right; discriminate |].
      exfalso. simpl in Ew, Eh. subst. apply Nc. reflexivity.
  - destruct z as [sc up']. cbn [size_scale upscale]. intros [-> H]. unfold parse_scale.
    destruct sc as [| f | w h | w h]; cbn [scale_text] in H.
    + subst s. reflexivity.
    + destruct H as (t & -> & H). cbn [String.eqb append Ascii.eqb Bool.eqb].
      assert (Es : strip_prefix "pct:" ("pct:" ++ t) = Some t) by (apply strip_prefix_some; reflexivity).
      cbn [append] in Es. rewrite Es. apply parse_scale_percent_ok. exists f. auto.
    + destruct H as (sw & sh & -> & Hne & Hw & Hh).
      assert (Hm : (sw ++ "," ++ sh =? "max")%string = false).
      { apply String.eqb_neq. eapply dim_head_not; [exact Hw | discriminate | reflexivity | discriminate]. }
      rewrite Hm, !strip_head_not
        by (eapply dim_head_not; [exact Hw | discriminate | reflexivity | discriminate]).
      assert (Hc : (sw ++ "," ++ sh =? ",")%string = false).
      { apply String.eqb_neq. intros E. destruct sw as [| a sw].
        - cbn [append] in E. inversion E; subst sh.
          destruct w as [n |]; simpl in Hw; [destruct Hw as [Hw _]; apply u32_literal_nonempty in Hw; congruence |].
          destruct h as [n |]; simpl in Hh; [destruct Hh as [Hh _]; apply u32_literal_nonempty in Hh; congruence |].
          destruct Hne; congruence.
        - cbn [append] in E. inversion E; subst. destruct sw; discriminate. }
      rewrite Hc.
      assert (Es : split_once "," (sw ++ "," ++ sh) = Some (sw, sh)).
      { apply split_once_some. split; [reflexivity | eapply opt_dim_free; eassumption]. }
      rewrite Es. rewrite (proj2 (parse_opt_px_ok _ _) Hw), (proj2 (parse_opt_px_ok _ _) Hh). reflexivity.
    + destruct H as (sw & sh & -> & Hw & Hh).
      assert (Ep : strip_prefix "pct:" ("!" ++ sw ++ "," ++ sh) = None) by reflexivity.
      assert (Ee : strip_prefix "!" ("!" ++ sw ++ "," ++ sh) = Some (sw ++ "," ++ sh))
        by (apply strip_prefix_some; reflexivity).
      rewrite Ep, Ee. change (("!" ++ sw ++ "," ++ sh =? "max")%string) with false. cbv iota.
      assert (Hc : (sw ++ "," ++ sh =? ",")%string = false).
      { apply String.eqb_neq. intros E. destruct Hw as [Hw _].
        destruct (u32_app_head _ _ ("," ++ sh) Hw) as (a & r & E' & Ha).
        rewrite E in E'. inversion E'; subst. destruct Ha; discriminate. }
      rewrite Hc.
      assert (Es : split_once "," (sw ++ "," ++ sh) = Some (sw, sh)).
      { apply split_once_some. split; [reflexivity | destruct Hw; eapply u32_comma_free; eassumption]. }
      rewrite Es. rewrite (proj2 (parse_scale_px_ok _ _) Hw), (proj2 (parse_scale_px_ok _ _) Hh). reflexivity.
Qed.

Lemma parse_size_ok : forall s z, parse_size s = Ok z <-> size_text s z.
Proof.
  intros s z. unfold size_text.
  assert (Hps : parse_size s = match strip_prefix "^" s with
                               | Some r => parse_scale true r
                               | None => parse_scale false s end)
    by (unfold parse_size; destruct (strip_prefix "^" s); reflexivity).
  rewrite Hps. destruct (strip_prefix "^" s) as [t |] eqn:E.
  - apply strip_prefix_some in E. subst s. rewrite parse_scale_ok. split.
    + intros [-> H]. exists t. split; [reflexivity | exact H].
    + intros (t' & H1 & H2). destruct (upscale z) eqn:Eu; cbn [append] in H1.
      * inversion H1; subst. auto.
      * exfalso. apply scale_head_not in H2. subst t'. exact (H2 t eq_refl).
  - apply strip_prefix_none in E. rewrite parse_scale_ok. split.
    + intros [-> H]. exists s. split; [reflexivity | exact H].
    + intros (t' & H1 & H2). destruct (upscale z) eqn:Eu; cbn [append] in H1.
      * exfalso. apply E. exists t'. assumption.
      * subst. auto.
Qed.

(** ** Rotation *)

Lemma bang_not_float : ~ float_char "!".
Proof. not_float_char. Qed.

Lemma f32_literal_head : forall a s f, f32_literal (String a s) f -> a <> "!"%char.
Proof.
  intros a s f H E. subst. apply bang_not_float.
  eapply f32_literal_chars; [exact H | left; reflexivity].
Qed.

Lemma parse_rotation_ok : forall s r, parse_rotation s = Ok r <-> rotation_text s r.
Proof.
  intros s r. unfold rotation_text.
  assert (Hcore : forall mir t,
    (match parse_f32 t with
     | None => Err (RotationAngleUnparsable t)
     | Some d => if f32_ge0 d && f32_le_int d 360 then Ok (mkRotation d mir)
                 else Err (RotationOutOfBounds t)
     end) = Ok r <->
    mirror r = mir /\ f32_literal t (degrees r) /\ f32_nonnegative (degrees r) /\ f32_at_most (degrees r) 360).
  { intros mir t. destruct (parse_f32 t) as [d |] eqn:E.
    - pose proof (proj1 (parse_f32_spec t d) E) as Hl.
      destruct (f32_ge0 d && f32_le_int d 360) eqn:Ec.
      + apply andb_true_iff in Ec. rewrite f32_ge0_spec, f32_le_int_spec in Ec
          by (eapply f32_literal_canonical; eassumption). split.
        * intros H; inversion H; subst. simpl. intuition.
        * intros (<- & H1 & _). rewrite (f32_literal_fun _ _ _ Hl H1). destruct r; reflexivity.
      + split; [discriminate |]. intros (_ & H1 & H2 & H3). exfalso.
        rewrite <- (f32_literal_fun _ _ _ Hl H1) in *.
        assert (f32_ge0 d && f32_le_int d 360 = true); [| congruence].
        rewrite andb_true_iff, f32_ge0_spec, f32_le_int_spec
          by (eapply f32_literal_canonical; eassumption). tauto.
    - split; [discriminate |]. intros (_ & H & _). apply parse_f32_spec in H. congruence. }
  unfold parse_rotation. destruct (strip_prefix "!" s) as [t |] eqn:E.
  - apply strip_prefix_some in E. subst s. eapply iff_trans; [exact (Hcore true t) |]. split.
    + intros (-> & H). exists t. split; [reflexivity | exact H].
    + intros (t' & H1 & H2). destruct (mirror r); cbn [append] in H1.
      * inversion H1; subst. auto.
      * exfalso. subst t'. destruct H2 as [H2 _]. apply f32_literal_head in H2. congruence.
  - apply strip_prefix_none in E. eapply iff_trans; [exact (Hcore false s) |]. split.
    + intros (-> & H). exists s. split; [reflexivity | exact H].
    + intros (t' & H1 & H2). destruct (mirror r); cbn [append] in H1.
      * exfalso. apply E. exists t'. assumption.
      * subst. auto.
Qed.

(** ** Quality and format *)

Lemma parse_quality_ok : forall s q, parse_quality s = Ok q <-> s = quality_name q.
Proof.
  intros s q. unfold parse_quality. split.
  - destruct (String.eqb_spec s "color"); [intros H; inversion H; subst; reflexivity |].
    destruct (String.eqb_spec s "gray"); [intros H; inversion H; subst; reflexivity |].
    destruct (String.eqb_spec s "bitonal"); [intros H; inversion H; subst; reflexivity |].
    destruct (String.eqb_spec s "default"); [intros H; inversion H; subst; reflexivity | discriminate].
  - intros ->. destruct q; reflexivity.
Qed.

Lemma parse_format_ok : forall s f, parse_format s = Ok f <-> s = format_name f.
Proof.
  intros s q. unfold parse_format. split.
  - repeat (match goal with |- context [String.eqb s ?x] =>
      destruct (String.eqb_spec s x); [intros H; inversion H; subst; reflexivity |] end).
    discriminate.
  - intros ->. destruct q; reflexivity.
Qed.
