(** The IIIF parameter parsers accept exactly the specified texts. *)

From Coq Require Import ZArith NArith List String Ascii Bool Lia.
From Verif Require Import LayaModel LayaSpec LayaProofsStr LayaProofsF32.
Import ListNotations.
Local Open Scope string_scope.

(** ** Digit runs *)

Definition nodigit (s : string) : Prop :=
  match s with EmptyString => True | String a _ => is_digit a = false end.

Lemma take_digits_app : forall ds rest acc n, all_digits ds -> nodigit rest ->
  take_digits (ds ++ rest) acc n =
  (horner ds acc, (n + Z.of_nat (String.length ds))%Z, rest).
Proof.
  induction ds; intros rest acc n Hd Hn; cbn [append horner String.length].
  - rewrite Z.add_0_r. destruct rest; [reflexivity |]. simpl. simpl in Hn. rewrite Hn. reflexivity.
  - apply all_digits_cons in Hd. destruct Hd as [Ha Hd].
    cbn [take_digits]. rewrite Ha, IHds by assumption. rewrite Nat2Z.inj_succ.
    f_equal. f_equal. lia.
Qed.

Lemma take_digits_inv : forall s acc n v k rest, take_digits s acc n = (v, k, rest) ->
  exists ds, s = ds ++ rest /\ all_digits ds /\ nodigit rest /\
    v = horner ds acc /\ k = (n + Z.of_nat (String.length ds))%Z.
Proof.
  induction s; intros acc n v k rest H; cbn [take_digits] in H.
  - inversion H; subst. exists "". repeat split; auto using all_digits_nil. simpl. lia.
  - destruct (is_digit a) eqn:Ha.
    + destruct (IHs _ _ _ _ _ H) as (ds & -> & Hd & Hn & -> & ->).
      exists (String a ds). split; [reflexivity |]. split; [apply all_digits_cons; auto |].
      split; [assumption |]. split; [reflexivity |]. cbn [String.length]. lia.
    + inversion H; subst. exists "". repeat split; auto using all_digits_nil. simpl. lia.
Qed.

Lemma strip_prefix_none : forall p s, strip_prefix p s = None <-> ~ exists r, s = p ++ r.
Proof.
  intros p s. destruct (strip_prefix p s) eqn:E.
  - split; [discriminate |]. intros H. exfalso. apply H. exists s0. apply strip_prefix_some; assumption.
  - split; [| reflexivity]. intros _ [r H]. apply strip_prefix_some in H. congruence.
Qed.

Lemma digits_all : forall s v, digits s v -> all_digits s.
Proof. intros; exists v; assumption. Qed.

Lemma digits_horner : forall s v, digits s v -> horner s 0 = v.
Proof. intros s v H. rewrite (horner_digits _ _ 0 H). lia. Qed.

Lemma length_zero : forall s, String.length s = 0%nat <-> s = "".
Proof. intros s; destruct s; simpl; split; congruence. Qed.

Lemma length_pos : forall s, s <> "" -> (Z.of_nat (String.length s) <> 0)%Z.
Proof. intros s H E. apply H. apply length_zero. lia. Qed.

Lemma parse_exponent_spec : forall s x,
  parse_exponent s = Some x <->
  exists sign ds v, (sign = "" \/ sign = "+" \/ sign = "-") /\ ds <> "" /\ digits ds v /\
    s = sign ++ ds /\ x = (if String.eqb sign "-" then - v else v)%Z.
Proof.
  intros s x. unfold parse_exponent.
  assert (Hcore : forall (neg : bool) t,
    (let '(v, n, rest) := take_digits t 0 0 in
     if (n =? 0)%Z then None
     else match rest with "" => Some (if neg then (- v)%Z else v) | _ => None end) = Some x <->
    exists v, t <> "" /\ digits t v /\ x = (if neg then - v else v)%Z).
  { intros neg t. destruct (take_digits t 0 0) as [[v n] rest] eqn:E.
    apply take_digits_inv in E. destruct E as (ds & -> & Hd & Hnd & -> & ->).
    destruct (Z.eqb_spec (0 + Z.of_nat (String.length ds)) 0) as [E0 | E0].
    - split; [discriminate |]. intros (v & Hne & Hdig & _). exfalso.
      assert (ds = "") by (apply length_zero; lia). subst. cbn [append] in *.
      destruct rest as [| a rest]; [congruence |]. simpl in Hnd.
      apply (digits_char a) in Hdig; [congruence | left; reflexivity].
    - destruct rest as [| a rest].
      + rewrite app_nil_r_s. split.
        * intros H; inversion H; subst. exists (horner ds 0).
          split; [intros ->; simpl in E0; congruence |].
          split; [apply all_digits_horner; assumption | reflexivity].
        * intros (v & _ & Hdig & ->). rewrite (digits_horner _ _ Hdig). reflexivity.
      + split; [discriminate |]. intros (v & _ & Hdig & _). exfalso. simpl in Hnd.
        apply (digits_char a) in Hdig; [congruence |]. rewrite chars_app. apply in_or_app.
        right. left. reflexivity. }
  assert (Hsd : forall c ds v, is_digit c = false -> digits (String c ds) v -> False).
  { intros c ds v Hc H. apply (digits_char c) in H; [congruence | left; reflexivity]. }
  destruct (strip_prefix "-" s) eqn:E1.
  - apply strip_prefix_some in E1. subst s. eapply iff_trans; [exact (Hcore true s0) |]. split.
    + intros (v & H1 & H2 & H3). exists "-", s0, v. intuition.
    + intros (sign & ds & v & Hs & H1 & H2 & H3 & H4).
      destruct Hs as [-> | [-> | ->]]; cbn [append] in H3.
      * subst ds. exfalso. eapply Hsd; [| exact H2]. reflexivity.
      * discriminate.
      * inversion H3; subst. exists v. intuition.
  - apply strip_prefix_none in E1. destruct (strip_prefix "+" s) eqn:E2.
    + apply strip_prefix_some in E2. subst s. eapply iff_trans; [exact (Hcore false s0) |]. split.
      * intros (v & H1 & H2 & H3). exists "+", s0, v. intuition.
      * intros (sign & ds & v & Hs & H1 & H2 & H3 & H4).
        destruct Hs as [-> | [-> | ->]]; cbn [append] in H3.
        -- subst ds. exfalso. eapply Hsd; [| exact H2]. reflexivity.
        -- inversion H3; subst. exists v. intuition.
        -- discriminate.
    + apply strip_prefix_none in E2. eapply iff_trans; [exact (Hcore false s) |]. split.
      * intros (v & H1 & H2 & H3). exists "", s, v. intuition.
      * intros (sign & ds & v & Hs & H1 & H2 & H3 & H4).
        destruct Hs as [-> | [-> | ->]]; cbn [append] in H3.
        -- subst. exists v. intuition.
        -- exfalso. apply E2. exists ds. assumption.
        -- exfalso. apply E1. exists ds. assumption.
Qed.

(** The tail of [parse_number] after the digits. *)
Definition exp_tail (rest : string) : option Z :=
  match rest with
  | EmptyString => Some 0%Z
  | String a r => if Ascii.eqb a "e" || Ascii.eqb a "E" then parse_exponent r else None
  end.

Lemma exp_tail_spec : forall s x, exp_tail s = Some x <-> exponent_part s x.
Proof.
  intros s x. unfold exponent_part. destruct s as [| a r]; simpl exp_tail.
  - split.
    + intros H; inversion H. left; auto.
    + intros [[_ ->] | (e & sign & ds & v & He & _ & _ & _ & H & _)]; [reflexivity |].
      destruct He; subst e; discriminate.
  - destruct (Ascii.eqb a "e" || Ascii.eqb a "E") eqn:Ha.
    + rewrite parse_exponent_spec. split.
      * intros (sign & ds & v & H1 & H2 & H3 & H4 & H5). right.
        exists (String a ""), sign, ds, v. subst r. cbn [append].
        apply orb_true_iff in Ha. rewrite !Ascii.eqb_eq in Ha.
        split; [destruct Ha; subst; auto |]. intuition.
      * intros [[H _] | (e & sign & ds & v & He & H1 & H2 & H3 & H4 & H5)]; [discriminate |].
        exists sign, ds, v. destruct He; subst e; cbn [append] in H4; inversion H4; subst; intuition.
    + split; [discriminate |].
      intros [[H _] | (e & sign & ds & v & He & _ & _ & _ & H & _)]; [discriminate |].
      destruct He; subst e; cbn [append] in H; inversion H; subst; discriminate.
Qed.

Lemma parse_number_alt : forall s, parse_number s =
  let '(ip, n1, rest) := take_digits s 0 0 in
  let '(m, n2, rest) := match strip_prefix "." rest with
                        | Some r => take_digits r ip 0
                        | None => (ip, 0%Z, rest)
                        end in
  if (n1 + n2 =? 0)%Z then None
  else match exp_tail rest with Some x => Some (m, (x - n2)%Z) | None => None end.
Proof.
  intros s. unfold parse_number. destruct (take_digits s 0 0) as [[ip n1] rest].
  destruct (match strip_prefix "." rest with
                        | Some r => take_digits r ip 0
                        | None => (ip, 0%Z, rest)
                        end) as [[m n2] rest'].
  destruct (n1 + n2 =? 0)%Z; [reflexivity |].
  destruct rest'; simpl; [reflexivity |].
  destruct ((a =? "e")%char || (a =? "E")%char); reflexivity.
Qed.

Lemma exponent_nodigit : forall ex x, exponent_part ex x ->
  nodigit ex /\ forall r, ex <> "." ++ r.
Proof.
  intros ex x [[-> _] | (e & sign & ds & v & He & _ & _ & _ & -> & _)].
  - split; [exact I | discriminate].
  - destruct He; subst; cbn [append nodigit]; split; try reflexivity; discriminate.
Qed.

Lemma parse_number_spec : forall s m p, parse_number s = Some (m, p) <-> decimal s m p.
Proof.
  intros s m p. rewrite parse_number_alt. unfold decimal. split.
  - destruct (take_digits s 0 0) as [[ip n1] rest] eqn:E.
    apply take_digits_inv in E. destruct E as (d1 & -> & Hd1 & Hn1 & -> & ->).
    destruct (strip_prefix "." rest) eqn:E2.
    + apply strip_prefix_some in E2. subst rest.
      destruct (take_digits s (horner d1 0) 0) as [[m' n2] rest] eqn:E.
      apply take_digits_inv in E. destruct E as (d2 & -> & Hd2 & Hn2 & -> & ->).
      destruct (Z.eqb_spec (0 + Z.of_nat (String.length d1) + (0 + Z.of_nat (String.length d2))) 0)
        as [E0 | E0]; [discriminate |].
      destruct (exp_tail rest) eqn:Ex; [| discriminate]. intros H; inversion H; subst.
      apply exp_tail_spec in Ex.
      exists d1, d2, ".", rest, z. split; [left; reflexivity |].
      split. { destruct d1; [destruct d2; [simpl in E0; congruence | discriminate] | discriminate]. }
      split. { rewrite <- horner_app. apply all_digits_horner. apply all_digits_app; auto. }
      split; [assumption |]. split; [reflexivity |]. lia.
    + destruct (Z.eqb_spec (0 + Z.of_nat (String.length d1) + 0) 0) as [E0 | E0]; [discriminate |].
      destruct (exp_tail rest) eqn:Ex; [| discriminate]. intros H; inversion H; subst.
      apply exp_tail_spec in Ex.
      exists d1, "", "", rest, z. split; [right; auto |]. rewrite app_nil_r_s.
      split. { intros ->. simpl in E0; congruence. }
      split; [apply all_digits_horner; assumption |]. split; [assumption |].
      split; [reflexivity |]. simpl. lia.
  - intros (ip & fp & dot & ex & x & Hdot & Hne & Hdig & Hex & -> & ->).
    destruct (exponent_nodigit _ _ Hex) as [Hnd Hndot].
    assert (Hall := digits_all _ _ Hdig). apply all_digits_app in Hall. destruct Hall as [Hi Hf].
    pose proof (proj2 (exp_tail_spec ex x) Hex) as Ht.
    destruct Hdot as [-> | [-> ->]].
    + rewrite take_digits_app; [| assumption | reflexivity].
      assert (Es : strip_prefix "." ("." ++ fp ++ ex) = Some (fp ++ ex))
        by (apply strip_prefix_some; reflexivity).
      rewrite Es. rewrite take_digits_app by assumption.
      destruct (Z.eqb_spec (0 + Z.of_nat (String.length ip) + (0 + Z.of_nat (String.length fp))) 0)
        as [E0 | E0].
      * exfalso. apply Hne. assert (ip = "") by (apply length_zero; lia).
        assert (fp = "") by (apply length_zero; lia). subst. reflexivity.
      * rewrite Ht. rewrite <- horner_app, (digits_horner _ _ Hdig). reflexivity.
    + cbn [append] in *. rewrite app_nil_r_s in *. rewrite take_digits_app by assumption.
      assert (Es : strip_prefix "." ex = None).
      { apply strip_prefix_none. intros [r Hr]. exact (Hndot r Hr). }
      rewrite Es.
      destruct (Z.eqb_spec (0 + Z.of_nat (String.length ip) + 0) 0) as [E0 | E0].
      * exfalso. apply Hne. apply length_zero; lia.
      * rewrite Ht, (digits_horner _ _ Hdig). reflexivity.
Qed.

Lemma decimal_nonempty : forall s m p, decimal s m p -> s <> "".
Proof.
  intros s m p (ip & fp & dot & ex & x & Hd & Hne & _ & _ & -> & _) H.
  apply Hne. destruct ip; [| discriminate]. destruct Hd as [-> | [-> ->]]; [discriminate | reflexivity].
Qed.

Lemma decimal_nonneg : forall s m p, decimal s m p -> (0 <= m)%Z.
Proof. intros s m p (ip & fp & dot & ex & x & _ & _ & H & _). eapply digits_nonneg; eassumption. Qed.

(** First character of a decimal: a digit or a point. *)
Lemma decimal_head : forall a s m p, decimal (String a s) m p -> is_digit a = true \/ a = "."%char.
Proof.
  intros a s m p (ip & fp & dot & ex & x & Hd & Hne & Hdig & _ & H & _).
  destruct ip as [| b ip].
  - destruct Hd as [-> | [-> ->]]; [| exfalso; apply Hne; reflexivity].
    cbn [append] in H. inversion H; auto.
  - cbn [append] in H. inversion H; subst. left.
    apply (digits_char b _ _ Hdig). left; reflexivity.
Qed.

Lemma scaled_spec : forall neg m p g, (0 <= m)%Z ->
  scaled_f32 neg m p = signed neg g <->
  nearest (m * 10 ^ Z.max 0 p) (10 ^ Z.max 0 (- p)) g.
Proof.
  intros neg m p g Hm. unfold scaled_f32. destruct (Z.leb_spec 0 p).
  - rewrite Z.max_r, Z.max_l by lia. rewrite Z.pow_0_r.
    apply round_f32_spec; [| lia]. pose proof (Z.pow_nonneg 10 p). nia.
  - rewrite Z.max_l, Z.max_r by lia. rewrite Z.pow_0_r, Z.mul_1_r.
    apply round_f32_spec; [assumption |]. apply Z.pow_pos_nonneg; lia.
Qed.

Lemma scaled_signed : forall neg m p, (0 <= m)%Z -> exists g, scaled_f32 neg m p = signed neg g.
Proof.
  intros neg m p Hm. unfold scaled_f32. destruct (Z.leb_spec 0 p).
  - destruct (round_f32_nearest neg (m * 10 ^ p) 1) as [g [Hg _]]; [| lia | eauto].
    pose proof (Z.pow_nonneg 10 p). nia.
  - destruct (round_f32_nearest neg m (10 ^ (- p))) as [g [Hg _]]; [assumption | | eauto].
    apply Z.pow_pos_nonneg; lia.
Qed.

(** ** Case-insensitive words *)

Lemma lower_cases : forall a b, lower a = b ->
  a = b \/ exists n, (n < 26)%N /\ a = ascii_of_N (65 + n) /\ b = ascii_of_N (97 + n).
Proof.
  intros a b H. unfold lower, code in H.
  destruct ((65 <=? Z.of_N (N_of_ascii a)) && (Z.of_N (N_of_ascii a) <=? 90))%Z eqn:E.
  - right. apply andb_true_iff in E. rewrite !Z.leb_le in E.
    exists (N_of_ascii a - 65)%N. split; [lia |].
    split.
    + rewrite <- (ascii_N_embedding a) at 1. f_equal. lia.
    + rewrite <- H. f_equal. lia.
  - left; assumption.
Qed.

Lemma lower_upper : forall n, (n < 26)%N -> lower (ascii_of_N (65 + n)) = ascii_of_N (97 + n).
Proof.
  intros n H. unfold lower, code. rewrite N_ascii_embedding by lia.
  destruct (Z.leb_spec 65 (Z.of_N (65 + n))); [| lia].
  destruct (Z.leb_spec (Z.of_N (65 + n)) 90); [| lia].
  cbn [andb]. f_equal. lia.
Qed.

Definition is_lower_word (w : string) : Prop :=
  Forall (fun a => lower a = a) (chars w).

Lemma spelled_spec : forall s w, is_lower_word w -> (lower_str s = w <-> spelled s w).
Proof.
  induction s as [| a s IH]; intros w Hw.
  - simpl. split; [intros <-; constructor | intros H; inversion H; reflexivity].
  - split.
    + intros H. simpl in H. destruct w as [| b w]; [discriminate |]. inversion H as [[H1 H2]].
      unfold is_lower_word in Hw. simpl in Hw. inversion Hw; subst.
      assert (Hsp : spelled s (lower_str s)) by (apply IH; [assumption | reflexivity]).
      destruct (lower_cases a (lower a) eq_refl) as [E | (n & Hn & E1 & E2)].
      * rewrite <- E. constructor; assumption.
      * rewrite E2. rewrite E1. apply spelled_upper; assumption.
    + intros H. unfold is_lower_word in Hw. inversion H as [| a' s' w' Hs | n s' w' Hn Hs]; subst; simpl in *.
      * inversion Hw; subst. f_equal; [assumption |]. apply IH; assumption.
      * inversion Hw; subst. f_equal; [apply lower_upper; assumption |]. apply IH; assumption.
Qed.

Lemma lower_word_inf : is_lower_word "inf" /\ is_lower_word "infinity" /\ is_lower_word "nan".
Proof. unfold is_lower_word. repeat split; repeat constructor. Qed.

Lemma parse_inf_nan_spec : forall s neg f,
  parse_inf_nan s neg = Some f <->
  ((spelled s "inf" \/ spelled s "infinity") /\ f = F32inf neg) \/ (spelled s "nan" /\ f = F32nan).
Proof.
  intros s neg f. unfold parse_inf_nan.
  destruct lower_word_inf as (W1 & W2 & W3).
  rewrite <- !spelled_spec by assumption.
  destruct (String.eqb_spec (lower_str s) "inf") as [E1 | N1]; simpl.
  - rewrite E1. split; [intros H; inversion H; auto |].
    intros [[_ ->] | [H _]]; [reflexivity | discriminate].
  - destruct (String.eqb_spec (lower_str s) "infinity") as [E2 | N2]; simpl.
    + rewrite E2. split; [intros H; inversion H; auto |].
      intros [[_ ->] | [H _]]; [reflexivity | discriminate].
    + destruct (String.eqb_spec (lower_str s) "nan") as [E3 | N3].
      * rewrite E3. split; [intros H; inversion H; auto |].
        intros [[[H | H] _] | [_ ->]]; [discriminate | discriminate | reflexivity].
      * split; [discriminate |]. intuition.
Qed.

Lemma spelled_head : forall a s b w, spelled (String a s) (String b w) -> lower b = b -> lower a = b.
Proof.
  intros a s b w H Hb. inversion H; subst; [assumption |]. apply lower_upper; assumption.
Qed.

(** A decimal is not one of the words. *)
Lemma word_head : forall s, spelled s "inf" \/ spelled s "infinity" \/ spelled s "nan" ->
  exists a r, s = String a r /\ (lower a = "i"%char \/ lower a = "n"%char).
Proof.
  intros s H. destruct s as [| a r]; [destruct H as [H | [H | H]]; inversion H |].
  exists a, r. split; [reflexivity |].
  destruct H as [H | [H | H]]; [left | left | right]; (eapply spelled_head; [exact H | reflexivity]).
Qed.

Lemma digit_lower : forall a, is_digit a = true \/ a = "."%char -> lower a = a.
Proof.
  intros [b0 b1 b2 b3 b4 b5 b6 b7] H.
  destruct b0, b1, b2, b3, b4, b5, b6, b7; try reflexivity;
    (exfalso; destruct H as [H | H]; [cbv in H; discriminate | discriminate H]).
Qed.

Lemma decimal_not_word : forall s m p, decimal s m p ->
  ~ (spelled s "inf" \/ spelled s "infinity" \/ spelled s "nan").
Proof.
  intros s m p Hd Hw. destruct (word_head _ Hw) as (a & r & -> & Hl).
  pose proof (decimal_head _ _ _ _ Hd) as Hh. pose proof (digit_lower _ Hh) as E.
  rewrite E in Hl. destruct Hl; subst; destruct Hh as [Hh | Hh]; discriminate Hh.
Qed.

(** ** f32 literals *)

Definition unsigned_literal (neg : bool) (body : string) (f : f32) : Prop :=
  (exists m p g, decimal body m p /\ f = signed neg g /\
        nearest (m * 10 ^ Z.max 0 p) (10 ^ Z.max 0 (- p)) g) \/
  ((spelled body "inf" \/ spelled body "infinity") /\ f = F32inf neg) \/
  (spelled body "nan" /\ f = F32nan).

Lemma unsigned_spec : forall neg body f,
  match body with
  | EmptyString => None
  | _ => match parse_number body with
         | Some (m, p) => Some (scaled_f32 neg m p)
         | None => parse_inf_nan body neg
         end
  end = Some f <-> unsigned_literal neg body f.
Proof.
  intros neg body f. unfold unsigned_literal.
  destruct body as [| a r].
  { split; [discriminate |]. intros [(m & p & g & H & _) | H].
    - apply decimal_nonempty in H. congruence.
    - exfalso. destruct (word_head "") as (a & r & H1 & _); [tauto | discriminate]. }
  remember (String a r) as body. clear Heqbody a r.
  destruct (parse_number body) as [[m p] |] eqn:E.
  - apply parse_number_spec in E. pose proof (decimal_nonneg _ _ _ E) as Hm. split.
    + intros H; inversion H; subst. left.
      destruct (scaled_signed neg m p Hm) as [g Hg]. exists m, p, g.
      split; [assumption |]. split; [assumption |]. apply (scaled_spec neg); assumption.
    + intros [(m' & p' & g & Hd & -> & Hn) | H].
      * apply parse_number_spec in Hd. apply parse_number_spec in E. rewrite E in Hd. inversion Hd; subst.
        f_equal. apply scaled_spec; assumption.
      * exfalso. apply (decimal_not_word _ _ _ E). tauto.
  - rewrite parse_inf_nan_spec. split.
    + intros [H | H]; tauto.
    + intros [(m' & p' & g & Hd & _) | H]; [| tauto].
      apply parse_number_spec in Hd. congruence.
Qed.

Lemma unsigned_head : forall neg a s f, unsigned_literal neg (String a s) f ->
  a <> "-"%char /\ a <> "+"%char.
Proof.
  intros neg a s f [(m & p & g & H & _) | H].
  - apply decimal_head in H.
    split; intros ->; destruct H as [H | H]; discriminate H.
  - destruct (word_head (String a s)) as (b & r & E & Hl); [tauto |]. inversion E; subst.
    split; intros ->; destruct Hl as [H' | H']; discriminate H'.
Qed.

Lemma parse_f32_spec : forall s f, parse_f32 s = Some f <-> f32_literal s f.
Proof.
  intros s f. unfold parse_f32, f32_literal. fold unsigned_literal.
  assert (Hnil : ~ exists neg, unsigned_literal neg "" f).
  { intros [neg H]. apply unsigned_spec in H. discriminate. }
  destruct s as [| a r].
  { split; [discriminate |].
    intros (sign & neg & body & Hs & H & Hb). fold (unsigned_literal neg body f) in Hb.
    destruct sign; [| discriminate]. cbn [append] in H. subst body. exfalso. eauto. }
  destruct (Ascii.eqb_spec a "-") as [-> | N1].
  - eapply iff_trans; [exact (unsigned_spec true r f) |]. split.
    + intros H. exists "-", true, r. split; [auto |]. split; [reflexivity | exact H].
    + intros (sign & neg & body & Hs & H & Hb). fold (unsigned_literal neg body f) in Hb.
      destruct Hs as [[-> ->] | [[-> | ->] ->]]; cbn [append] in H.
      * inversion H; subst. assumption.
      * discriminate.
      * subst body. apply unsigned_head in Hb. destruct Hb; congruence.
  - cbn [orb]. destruct (Ascii.eqb_spec a "+") as [-> | N2].
    + eapply iff_trans; [exact (unsigned_spec false r f) |]. split.
      * intros H. exists "+", false, r. split; [auto |]. split; [reflexivity | exact H].
      * intros (sign & neg & body & Hs & H & Hb). fold (unsigned_literal neg body f) in Hb.
        destruct Hs as [[-> ->] | [[-> | ->] ->]]; cbn [append] in H.
        -- discriminate.
        -- inversion H; subst. assumption.
        -- subst body. apply unsigned_head in Hb. destruct Hb; congruence.
    + eapply iff_trans; [exact (unsigned_spec false (String a r) f) |]. split.
      * intros H. exists "", false, (String a r). split; [auto |]. split; [reflexivity | exact H].
      * intros (sign & neg & body & Hs & H & Hb). fold (unsigned_literal neg body f) in Hb.
        destruct Hs as [[-> ->] | [[-> | ->] ->]]; cbn [append] in H.
        -- inversion H; congruence.
        -- inversion H; congruence.
        -- subst body. assumption.
Qed.

Lemma f32_literal_fun : forall s f g, f32_literal s f -> f32_literal s g -> f = g.
Proof. intros s f g Hf Hg. apply parse_f32_spec in Hf. apply parse_f32_spec in Hg. congruence. Qed.

Lemma f32_literal_nonempty : forall f, ~ f32_literal "" f.
Proof. intros f H. apply parse_f32_spec in H. discriminate. Qed.

(** ** Characters of a float literal: no comma, no slash. *)

Definition float_char (a : ascii) : Prop :=
  is_digit a = true \/ a = "."%char \/ a = "+"%char \/ a = "-"%char \/
  (97 <= code (lower a) <= 122)%Z.

Lemma spelled_chars : forall s w, spelled s w -> Forall (fun a => 97 <= code a <= 122)%Z (chars w) ->
  forall a, In a (chars s) -> float_char a.
Proof.
  unfold chars. induction 1; intros Hw c Hin; cbn [list_ascii_of_string In] in *; [contradiction | |].
  - inversion Hw; subst. destruct Hin as [-> | Hin]; [| auto].
    right; right; right; right. unfold lower, code in *.
    destruct ((65 <=? Z.of_N (N_of_ascii c)) && (Z.of_N (N_of_ascii c) <=? 90))%Z eqn:E; [| assumption].
    apply andb_true_iff in E. rewrite !Z.leb_le in E. lia.
  - inversion Hw; subst. destruct Hin as [<- | Hin]; [| auto].
    right; right; right; right. rewrite lower_upper by assumption. assumption.
Qed.

Lemma digits_float_char : forall s v a, digits s v -> In a (chars s) -> float_char a.
Proof. intros s v a H Hin. left. eapply digits_char; eassumption. Qed.

Lemma decimal_chars : forall s m p a, decimal s m p -> In a (chars s) -> float_char a.
Proof.
  intros s m p a (ip & fp & dot & ex & x & Hd & Hne & Hdig & Hex & -> & _) Hin.
  assert (Hall := digits_all _ _ Hdig). apply all_digits_app in Hall.
  destruct Hall as [[v1 Hi] [v2 Hf]].
  rewrite !chars_app, !in_app_iff in Hin.
  destruct Hin as [Hin | [Hin | [Hin | Hin]]].
  - exact (digits_float_char _ _ _ Hi Hin).
  - destruct Hd as [-> | [-> _]]; simpl in Hin; [| contradiction].
    destruct Hin as [<- | []]. right; left; reflexivity.
  - exact (digits_float_char _ _ _ Hf Hin).
  - destruct Hex as [[-> _] | (e & sign & ds & v & He & Hs & _ & Hds & -> & _)]; [contradiction |].
    rewrite !chars_app, !in_app_iff in Hin. destruct Hin as [Hin | [Hin | Hin]].
    + destruct He; subst; simpl in Hin; destruct Hin as [<- | []];
        right; right; right; right; cbv; split; discriminate.
    + destruct Hs as [-> | [-> | ->]]; simpl in Hin; [contradiction | |];
        destruct Hin as [<- | []]; unfold float_char; auto.
    + exact (digits_float_char _ _ _ Hds Hin).
Qed.

Lemma f32_literal_chars : forall s f a, f32_literal s f -> In a (chars s) -> float_char a.
Proof.
  intros s f a (sign & neg & body & Hs & -> & Hb) Hin.
  rewrite chars_app, in_app_iff in Hin. destruct Hin as [Hin | Hin].
  - destruct Hs as [[-> _] | [[-> | ->] _]]; simpl in Hin; try contradiction;
      destruct Hin as [<- | []]; unfold float_char; auto.
  - destruct Hb as [(m & p & g & Hd & _) | [[[Hb | Hb] _] | [Hb _]]].
    + eapply decimal_chars; eassumption.
    + eapply spelled_chars; [exact Hb | | exact Hin]. repeat constructor; cbv; discriminate.
    + eapply spelled_chars; [exact Hb | | exact Hin]. repeat constructor; cbv; discriminate.
    + eapply spelled_chars; [exact Hb | | exact Hin]. repeat constructor; cbv; discriminate.
Qed.

Lemma f32_literal_free : forall s f c, f32_literal s f -> ~ float_char c -> free_of c s.
Proof. intros s f c H Hc Hin. apply Hc. eapply f32_literal_chars; eassumption. Qed.

Ltac not_float_char :=
  let H := fresh in
  intros [H | [H | [H | [H | H]]]];
  [discriminate H | discriminate H | discriminate H | discriminate H
  | destruct H as [?H1 ?H2]; cbv in *; congruence].

Lemma comma_not_float : ~ float_char ",".
Proof. not_float_char. Qed.
Lemma slash_not_float : ~ float_char "/".
Proof. not_float_char. Qed.

(** ** Comparisons *)

Lemma f32_gt0_spec : forall f, f32_gt0 f = true <-> f32_positive f.
Proof.
  intros [| neg | neg m e]; simpl; [split; [discriminate | tauto] | |].
  - destruct neg; simpl; split; congruence.
  - rewrite andb_true_iff, Z.ltb_lt. destruct neg; simpl; intuition; try discriminate.
Qed.

Lemma f32_ge0_spec : forall f, f32_ge0 f = true <-> f32_nonnegative f.
Proof.
  intros [| neg | neg m e]; simpl; [split; [discriminate | tauto] | |].
  - destruct neg; simpl; split; congruence.
  - rewrite orb_true_iff, Z.eqb_eq. destruct neg; simpl; intuition; try discriminate.
Qed.

Definition canonical_f32 (f : f32) : Prop :=
  match f with F32fin _ m e => canonical m e | _ => True end.

Lemma f32_literal_canonical : forall s f, f32_literal s f -> canonical_f32 f.
Proof.
  intros s f (sign & neg & body & _ & _ & Hb).
  destruct Hb as [(m & p & g & _ & -> & Hn) | [[_ ->] | [_ ->]]]; [| exact I | exact I].
  destruct g as [[mm ee] |]; simpl; [| exact I]. destruct Hn as (_ & Hc & _). assumption.
Qed.

Lemma f32_le_int_spec : forall f c, canonical_f32 f ->
  (f32_le_int f c = true <-> f32_at_most f c).
Proof.
  intros [| neg | neg m e] c Hc; simpl; [split; [discriminate | tauto] | |].
  - destruct neg; simpl; split; congruence.
  - rewrite orb_true_iff. unfold units.
    assert (Hx : (if (0 <=? e)%Z then (m * 2 ^ e <=? c)%Z else (m <=? c * 2 ^ (- e))%Z) = true <->
      (m * 2 ^ (e + 149) <= c * 2 ^ 149)%Z); [| destruct neg; simpl in *; intuition].
    simpl in Hc. unfold canonical in Hc.
    destruct (Z.leb_spec 0 e).
    + rewrite Z.leb_le. rewrite pow2_split by lia. rewrite Z.mul_assoc.
      apply Z.mul_le_mono_pos_r. apply pow2_pos; lia.
    + rewrite Z.leb_le. replace (2 ^ 149)%Z with (2 ^ (- e) * 2 ^ (e + 149))%Z.
      2: { rewrite <- pow2_split by lia. f_equal. lia. }
      rewrite Z.mul_assoc. apply Z.mul_le_mono_pos_r. apply pow2_pos; lia.
Qed.
