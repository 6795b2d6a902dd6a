(** The decoder's passes against those of T1Spec. *)

From Coq Require Import ZArith List Bool Lia FinFun.
From Verif Require Import Ints I32 Mem MqModel T1Luts T1Model T1Spec T1Bits T1Rel T1Enc T1Stage.
Import ListNotations.
Local Open Scope Z_scope.

(** The bit the decoder reads next, and what is left. *)
Definition next (raw : bool) (cx : Z) (q : mqd) : option (Z * mqd) := if raw then Some (raw_decode q) else decode cx q.
Fixpoint feeds (raw : bool) (o : list (Z * Z)) (q q' : mqd) : Prop :=
  match o with
  | [] => q' = q
  | (cx, b) :: o => exists q1, next raw cx q = Some (b, q1) /\ feeds raw o q1 q'
  end.
Lemma feeds_app : forall raw o o' q q', feeds raw (o ++ o') q q' <-> exists q1, feeds raw o q q1 /\ feeds raw o' q1 q'.
Proof.
  intros raw o. induction o as [| [cx b] o IH]; intros o' q q'; cbn [app feeds].
  - split; [intros H; exists q; auto | intros (q1 & -> & H); exact H].
  - split.
    + intros (q1 & E & H). apply IH in H. destruct H as (q2 & H1 & H2). exists q2. split; [exists q1; auto | exact H2].
    + intros (q2 & (q1 & E & H1) & H2). exists q1. split; [exact E |]. apply IH. exists q2. auto.
Qed.

(** ** Values *)

Definition vals (B : block) (r : Z) (v : mem) (s : state) : Prop := forall x y, inside B x y = true ->
  v (y * width B + x) = known_value r (magnitude B x y) (negative B x y) (level s x y).

Lemma place : forall w x y x' y', 0 <= x < w -> 0 <= x' < w -> y * w + x = y' * w + x' -> x = x' /\ y = y'.
Proof.
  intros w x y x' y' Hx Hx' E. assert (y = y').
  { assert (y < y' + 1) by (apply (Z.mul_lt_mono_pos_r w); lia). assert (y' < y + 1) by (apply (Z.mul_lt_mono_pos_r w); lia). lia. }
  subst. lia.
Qed.

Lemma vals_upd : forall B r v s s' x y u, vals B r v s -> inside B x y = true ->
  (forall x' y', x' <> x \/ y' <> y -> level s' x' y' = level s x' y') ->
  u = known_value r (magnitude B x y) (negative B x y) (level s' x y) -> vals B r (upd v (y * width B + x) u) s'.
Proof.
  intros B r v s s' x y u H Hin Hl -> x' y' Hin'.
  destruct (Z.eq_dec (y' * width B + x') (y * width B + x)) as [E | E].
  - apply inside_bounds in Hin, Hin'. destruct (place _ _ _ _ _ (proj1 Hin') (proj1 Hin) E) as [-> ->]. apply upd_same.
  - rewrite upd_other by congruence. rewrite H by exact Hin'. rewrite Hl; [reflexivity |].
    destruct (Z.eq_dec x' x) as [-> |]; [right; intros ->; apply E; reflexivity | left; assumption].
Qed.
Lemma vals_keep : forall B r v s s' x y, vals B r v s -> inside B x y = true ->
  (forall x' y', x' <> x \/ y' <> y -> level s' x' y' = level s x' y') ->
  known_value r (magnitude B x y) (negative B x y) (level s x y) = known_value r (magnitude B x y) (negative B x y) (level s' x y) -> vals B r v s'.
Proof.
  intros B r v s s' x y H Hin Hl E x' y' Hin'. rewrite H by exact Hin'.
  destruct (Z.eq_dec x' x) as [-> |]; [destruct (Z.eq_dec y' y) as [-> |] |]; [exact E | |]; rewrite Hl by auto; reflexivity.
Qed.

Lemma known_zero : forall r m n q, Z.shiftr m q = 0 -> known_value r m n q = 0.
Proof. intros r m n q E. unfold known_value. rewrite E. reflexivity. Qed.
Lemma known_one : forall r m n p, 0 <= r -> 0 <= p -> Z.shiftr m p = 1 ->
  known_value r m n p = (if n then -1 else 1) * (2 ^ (r + p + 1) + 2 ^ (r + p)).
Proof.
  intros r m n p Hr Hp E. unfold known_value. rewrite E. cbn [Z.eqb Pos.eqb]. rewrite Z.mul_1_l, Z.mul_add_distr_r, <- !Z.pow_add_r by lia.
  replace (p + 1 + r) with (r + p + 1) by lia. replace (p + r) with (r + p) by lia. reflexivity.
Qed.

Lemma half_check : forallb (fun n => one_plus_half n =? 2 ^ n + 2 ^ (n - 1)) (map Z.of_nat (seq 1 30)) = true.
Proof. vm_compute. reflexivity. Qed.
Lemma one_plus_half_value : forall n, 1 <= n <= 30 -> one_plus_half n = 2 ^ n + 2 ^ (n - 1).
Proof.
  intros n H. pose proof (proj1 (forallb_forall _ _) half_check n) as C. apply Z.eqb_eq, C. apply in_map_iff. exists (Z.to_nat n).
  split; [lia |]. apply in_seq. lia.
Qed.

Lemma set_sign_value : forall B r m x y p, 0 <= r -> 0 <= p -> r + p + 1 <= 30 -> Z.shiftr m p = 1 ->
  set_sign (sign_at B x y) (one_plus_half (r + p + 1)) = known_value r m (negative B x y) p.
Proof.
  intros B r m x y p Hr Hp Hb E. rewrite known_one by assumption. rewrite one_plus_half_value by lia.
  replace (r + p + 1 - 1) with (r + p) by lia. unfold set_sign, sign_at. destruct (negative B x y); cbn [negb Z.eqb Pos.eqb]; lia.
Qed.

Lemma known_bound : forall r m N p, 0 <= r -> 0 <= p < N -> 0 <= m < 2 ^ N ->
  (Z.shiftr m p * 2 ^ (p + 1) + 2 ^ p) * 2 ^ r < 2 ^ (N + 1 + r).
Proof.
  intros r m N p Hr Hp Hm. rewrite (Z.pow_add_r 2 (N + 1) r) by lia. apply Z.mul_lt_mono_pos_r; [apply Z.pow_pos_nonneg; lia |].
  rewrite Z.shiftr_div_pow2 by lia. rewrite (Z.pow_add_r 2 p 1), (Z.pow_add_r 2 N 1) by lia.
  assert (Hq : m / 2 ^ p < 2 ^ (N - p)).
  { apply Z.div_lt_upper_bound; [apply Z.pow_pos_nonneg; lia |]. rewrite <- Z.pow_add_r by lia. replace (p + (N - p)) with N by lia. lia. }
  assert (EN : 2 ^ N = 2 ^ (N - p) * 2 ^ p) by (rewrite <- Z.pow_add_r by lia; f_equal; lia). rewrite EN.
  assert (0 < 2 ^ p) by (apply Z.pow_pos_nonneg; lia). change (2 ^ 1) with 2. clear - Hq H. nia.
Qed.

Lemma refine_value : forall r m N n p, 0 <= r -> 0 <= p < N -> 0 <= m < 2 ^ N -> r + N <= 30 -> Z.shiftr m (p + 1) <> 0 ->
  refine (known_value r m n (p + 1)) (if Z.testbit m p then 1 else 0) (Z.shiftr (Z.shiftl 1 (r + p + 1)) 1) = known_value r m n p.
Proof.
  intros r m N n p Hr Hp Hm HN H0.
  assert (Eh : Z.shiftr (Z.shiftl 1 (r + p + 1)) 1 = 2 ^ p * 2 ^ r).
  { rewrite Z.shiftl_1_l, Z.shiftr_div_pow2 by lia. rewrite <- Z.pow_sub_r by lia. rewrite <- Z.pow_add_r by lia. f_equal. lia. }
  rewrite Eh. pose proof (known_bound r m N p Hr Hp Hm) as Bd.
  assert (2 ^ (N + 1 + r) <= 2 ^ 31) by (apply Z.pow_le_mono_r; lia).
  pose proof (shift_significant m p ltac:(lia) ltac:(lia) H0) as H1. pose proof (shiftr_step m p ltac:(lia)) as St.
  pose proof (nonneg_shiftr m (p + 1) ltac:(lia)) as Na.
  unfold known_value. rewrite (proj2 (Z.eqb_neq _ _) H0), (proj2 (Z.eqb_neq _ _) H1).
  rewrite (Z.pow_add_r 2 p 1) in Bd by lia. change (2 ^ 1) with 2 in Bd.
  assert (Ep : 2 ^ (p + 1) = 2 ^ p * 2) by (rewrite Z.pow_add_r by lia; reflexivity).
  assert (Ep2 : 2 ^ (p + 1 + 1) = 2 ^ p * 4) by (rewrite <- Z.add_assoc, Z.pow_add_r by lia; reflexivity).
  rewrite Ep2, Ep. rewrite St in Bd |- *. set (a := Z.shiftr m (p + 1)) in *.
  assert (P1 : 0 < 2 ^ p) by (apply Z.pow_pos_nonneg; lia). assert (P2 : 0 < 2 ^ r) by (apply Z.pow_pos_nonneg; lia).
  assert (Pr : 0 < 2 ^ p * 2 ^ r) by (apply Z.mul_pos_pos; assumption).
  set (u := 2 ^ p * 2 ^ r) in *. assert (Pa : 0 < a * u) by (apply Z.mul_pos_pos; lia).
  assert (W : (a * (2 ^ p * 4) + 2 ^ p * 2) * 2 ^ r = 4 * (a * u) + 2 * u) by (unfold u; ring). rewrite W.
  assert (W2 : forall b, ((2 * a + b) * (2 ^ p * 2) + 2 ^ p) * 2 ^ r = 4 * (a * u) + 2 * (b * u) + u) by (intros; unfold u; ring).
  rewrite W2 in Bd |- *. change (2 ^ 31) with 2147483648 in H. unfold refine.
  destruct n; destruct (Z.testbit m p).
  - replace (-1 * (4 * (a * u) + 2 * u) <? 0) with true by (symmetry; apply Z.ltb_lt; lia). change (Z.lxor 1 1 =? 0) with true. cbv iota.
    rewrite i32_id by (unfold in_i32; lia). lia.
  - replace (-1 * (4 * (a * u) + 2 * u) <? 0) with true by (symmetry; apply Z.ltb_lt; lia). change (Z.lxor 0 1 =? 0) with false. cbv iota.
    rewrite i32_id by (unfold in_i32; lia). lia.
  - replace (1 * (4 * (a * u) + 2 * u) <? 0) with false by (symmetry; apply Z.ltb_ge; lia). change (Z.lxor 1 0 =? 0) with false. cbv iota.
    rewrite i32_id by (unfold in_i32; lia). lia.
  - replace (1 * (4 * (a * u) + 2 * u) <? 0) with false by (symmetry; apply Z.ltb_ge; lia). change (Z.lxor 0 0 =? 0) with true. cbv iota.
    rewrite i32_id by (unfold in_i32; lia). lia.
Qed.

(** ** Decoder steps *)

Definition DOk (B : block) (r : Z) (t : dst) (s : state) : Prop := Ok B (d_f t) s (visited s) /\ vals B r (d_v t) s.

Definition dsim (B : block) (r : Z) (raw : bool) (P : state -> Prop) (D : dstep) (S : step) : Prop :=
  forall t s q, DOk B r t s -> P s -> feeds raw (snd (S s)) (d_q t) q ->
  exists t', D t = Some t' /\ d_q t' = q /\ DOk B r t' (fst (S s)).

Lemma dsim_list : forall {K} B r raw (D : K -> dstep) (S : K -> step) (P : K -> state -> Prop) l, NoDup l ->
  (forall k, In k l -> dsim B r raw (P k) (D k) (S k)) ->
  (forall k k' s, In k l -> In k' l -> k <> k' -> P k' s -> P k' (fst (S k s))) ->
  dsim B r raw (fun s => forall k, In k l -> P k s) (dsteps (map D l)) (steps (map S l)).
Proof.
  intros K B r raw D S P l ND. induction ND as [| k l N1 N2 IH]; intros HD HF t s q O HP Hq; cbn [map dsteps steps] in *.
  - cbn [snd fst feeds] in *. exists t. subst. auto.
  - pose proof (HD k (or_introl eq_refl) t s) as H1. pose proof (fun k' I => HF k k' s (or_introl eq_refl) (or_intror I)) as HF1.
    destruct (S k s) as [s1 o1]. cbn [fst snd] in *. destruct (steps (map S l) s1) as [s2 o2] eqn:E2. cbn [fst snd] in *.
    apply feeds_app in Hq. destruct Hq as (q1 & Q1 & Q2).
    destruct (H1 q1 O (HP k (or_introl eq_refl)) Q1) as (t1 & -> & Eq1 & O1). subst q1.
    pose proof (IH ltac:(intros; apply HD; right; assumption) ltac:(intros k1 k2 s0 I1 I2; apply HF; right; assumption) t1 s1 q O1) as H2.
    rewrite E2 in H2. apply H2; [| exact Q2]. intros k' I. apply HF1; [exact I | intros ->; exact (N1 I) | apply HP; right; exact I].
Qed.

Section Dec.
  Variables (B : block) (r p N sty : Z).
  Hypotheses (G : good B) (Hr : 0 <= r) (Hp : 0 <= p < N) (HN : r + N <= 30) (Hv : causal B = styled sty CBLKSTY_VSC).
  Hypothesis Hm : forall x y, inside B x y = true -> 0 <= magnitude B x y < 2 ^ N.
  Local Notation bpno := (r + p + 1).
  Local Notation oph := (one_plus_half (r + p + 1)).

  (** Value after a bit and maybe a sign. *)
  Lemma code_zero_level : forall raw s x y x' y', level (fst (code_zero raw B p x y s)) x' y' = set (level s) x y p x' y'.
  Proof. intros. unfold code_zero, code_sign. destruct (sign_context B s x y). destruct (bit_at B p x y =? 1); reflexivity. Qed.

  Lemma vals_zero : forall raw v s x y, vals B r v s -> inside B x y = true -> consistent B s x y -> significant s x y = false -> level s x y = p + 1 ->
    vals B r (if bit_at B p x y =? 1 then upd v (y * width B + x) (set_sign (sign_at B x y) oph) else v) (fst (code_zero raw B p x y s)).
  Proof.
    intros raw v s x y Vv Hin C Hs Hl. unfold consistent in C. rewrite Hs, Hl in C. symmetry in C. apply negb_false_iff, Z.eqb_eq in C.
    pose proof (shiftr_bit B p x y ltac:(lia) C) as Sb.
    assert (Lo : forall x' y', x' <> x \/ y' <> y -> level (fst (code_zero raw B p x y s)) x' y' = level s x' y')
      by (intros; rewrite code_zero_level; apply set_other; assumption).
    assert (Ls : level (fst (code_zero raw B p x y s)) x y = p) by (rewrite code_zero_level; apply set_same).
    destruct (bit_cases B p x y) as [E | E]; rewrite E in *; cbn [Z.eqb Pos.eqb].
    - apply (vals_keep B r v s _ x y); try assumption. rewrite Ls, Hl, !known_zero by assumption. reflexivity.
    - apply (vals_upd B r v s _ x y); try assumption. rewrite Ls. apply set_sign_value; try assumption; lia.
  Qed.

  Lemma flip_sign : forall a b, Z.lxor (Z.lxor a b) b = a.
  Proof. intros. rewrite Z.lxor_assoc, Z.lxor_nilpotent, Z.lxor_0_r. reflexivity. Qed.

  Lemma sig_dstep_mqc : forall x k ci vsc, 0 <= ci < 4 -> inside B x (4 * k + ci) = true -> (ci = 0 -> vsc = causal B) ->
    dsim B r false (fun s => before_sig B p s x (4 * k + ci))
      (dec_sig_step_mqc (width B) (band B) oph (flag_at (width B) x k) (dec_data (width B) k x ci) ci vsc)
      (significance_step false B p x (4 * k + ci)).
  Proof.
    intros x k ci vsc Hc Hin Hvs t s q [O Vv] (C & Vis & Lv) Hq. pose proof (proj1 O) as R. unfold dec_sig_step_mqc, significance_step, dec_data in *. cbv zeta.
    rewrite (read_quiet B (d_f t) s (visited s) x k ci R Hc Hin), (read_any B (d_f t) s (visited s) x k ci R Hc Hin).
    destruct (significant s x (4 * k + ci)) eqn:Hs; [exists t; cbn [negb andb fst snd feeds] in *; subst; exact (conj eq_refl (conj eq_refl (conj O Vv))) |].
    rewrite Vis in Hq |- *. cbn [negb andb] in *.
    destruct (any_seen B s x (4 * k + ci)); [| exists t; cbn [fst snd feeds] in *; subst; exact (conj eq_refl (conj eq_refl (conj O Vv)))].
    pose proof (ok_code_zero false B p (d_f t) s (visited s) x k ci vsc G O Hc Hin Hvs) as O1.
    pose proof (code_zero_out false B p s x (4 * k + ci)) as Eo. pose proof (code_zero_visited false B p s x (4 * k + ci)) as Ev.
    pose proof (vals_zero false (d_v t) s x (4 * k + ci) Vv Hin C Hs Lv) as V1.
    rewrite (read_zc B (d_f t) s (visited s) x k ci G R Hc Hin).
    pose proof (read_sc B (d_f t) s (visited s) x k ci R Hc Hin) as Rs. cbv zeta in Rs.
    destruct (code_zero false B p x (4 * k + ci) s) as [s1 o1]. cbn [fst snd] in *. subst o1. rewrite <- Ev in O1. unfold after_zero in O1.
    cbn [feeds next] in Hq. destruct Hq as (q1 & -> & Hq). unfold sign_symbol in Hq. rewrite <- Rs in Hq. cbn [fst snd] in Hq.
    destruct (bit_cases B p x (4 * k + ci)) as [E | E]; rewrite E in *; cbn [Z.eqb Pos.eqb negb feeds next] in *.
    - subst q. eexists. split; [reflexivity |]. cbn [d_q]. split; [reflexivity |]. split; cbn [d_f d_v]; [apply ok_visited; assumption | exact V1].
    - destruct Hq as (q2 & -> & ->). rewrite flip_sign.
      eexists. split; [reflexivity |]. cbn [d_q]. split; [reflexivity |]. split; cbn [d_f d_v]; [apply ok_visited; assumption | exact V1].
  Qed.

  Lemma sig_dstep_raw : forall x k ci vsc, 0 <= ci < 4 -> inside B x (4 * k + ci) = true -> (ci = 0 -> vsc = causal B) ->
    dsim B r true (fun s => before_sig B p s x (4 * k + ci))
      (dec_sig_step_raw (width B) oph (flag_at (width B) x k) (dec_data (width B) k x ci) ci vsc)
      (significance_step true B p x (4 * k + ci)).
  Proof.
    intros x k ci vsc Hc Hin Hvs t s q [O Vv] (C & Vis & Lv) Hq. pose proof (proj1 O) as R. unfold dec_sig_step_raw, significance_step, dec_data in *. cbv zeta.
    rewrite (read_quiet B (d_f t) s (visited s) x k ci R Hc Hin), (read_any B (d_f t) s (visited s) x k ci R Hc Hin).
    destruct (significant s x (4 * k + ci)) eqn:Hs; [exists t; cbn [negb andb fst snd feeds] in *; subst; exact (conj eq_refl (conj eq_refl (conj O Vv))) |].
    rewrite Vis in Hq |- *. cbn [negb andb] in *.
    destruct (any_seen B s x (4 * k + ci)); [| exists t; cbn [fst snd feeds] in *; subst; exact (conj eq_refl (conj eq_refl (conj O Vv)))].
    pose proof (ok_code_zero true B p (d_f t) s (visited s) x k ci vsc G O Hc Hin Hvs) as O1.
    pose proof (code_zero_out true B p s x (4 * k + ci)) as Eo. pose proof (code_zero_visited true B p s x (4 * k + ci)) as Ev.
    pose proof (vals_zero true (d_v t) s x (4 * k + ci) Vv Hin C Hs Lv) as V1.
    destruct (code_zero true B p x (4 * k + ci) s) as [s1 o1]. cbn [fst snd] in *. subst o1. rewrite <- Ev in O1. unfold after_zero in O1.
    cbn [feeds next] in Hq. destruct Hq as (q1 & E1 & Hq). assert (E1' : raw_decode (d_q t) = (bit_at B p x (4 * k + ci), q1)) by congruence. rewrite E1'.
    unfold sign_symbol in Hq.
    destruct (bit_cases B p x (4 * k + ci)) as [E | E]; rewrite E in *; cbn [Z.eqb Pos.eqb negb feeds next d_f d_v d_q] in *.
    - subst q. eexists. split; [reflexivity |]. cbn [d_q]. split; [reflexivity |]. split; cbn [d_f d_v]; [apply ok_visited; assumption | exact V1].
    - destruct Hq as (q2 & E2 & ->). assert (E2' : raw_decode q1 = (sign_at B x (4 * k + ci), q2)) by congruence. rewrite E2'.
      eexists. split; [reflexivity |]. cbn [d_q]. split; [reflexivity |]. split; cbn [d_f d_v]; [apply ok_visited; assumption | exact V1].
  Qed.

  Lemma vals_refine : forall v s x y, vals B r v s -> inside B x y = true -> consistent B s x y -> significant s x y = true -> level s x y = p + 1 ->
    vals B r (upd v (y * width B + x) (refine (v (y * width B + x)) (bit_at B p x y) (Z.shiftr (Z.shiftl 1 bpno) 1)))
      (set_level p (set_refined s x y) x y).
  Proof.
    intros v s x y Vv Hin C Hs Hl. unfold consistent in C. rewrite Hs, Hl in C. symmetry in C. apply negb_true_iff, Z.eqb_neq in C.
    apply (vals_upd B r v s); try assumption.
    - intros. cbn [set_level set_refined level]. apply set_other. assumption.
    - cbn [set_level level]. rewrite set_same. rewrite (Vv x y Hin), Hl. unfold bit_at. apply (refine_value r _ N); try assumption. apply Hm, Hin.
  Qed.

  Lemma ref_dstep_mqc : forall x k ci, 0 <= ci < 4 -> inside B x (4 * k + ci) = true ->
    dsim B r false (fun s => before_ref B p s x (4 * k + ci))
      (dec_ref_step_mqc (Z.shiftr (Z.shiftl 1 bpno) 1) (flag_at (width B) x k) (dec_data (width B) k x ci) ci)
      (refinement_step B p x (4 * k + ci)).
  Proof.
    intros x k ci Hc Hin t s q [O Vv] (C & Lv) Hq. pose proof (proj1 O) as R. unfold dec_ref_step_mqc, refinement_step, dec_data in *. cbv zeta.
    rewrite (read_to_refine B (d_f t) s (visited s) x k ci R Hc Hin), (read_mag B (d_f t) s (visited s) x k ci R Hc Hin).
    destruct (significant s x (4 * k + ci)) eqn:Hs; cbn [andb] in *; [| exists t; cbn [fst snd feeds] in *; subst; exact (conj eq_refl (conj eq_refl (conj O Vv)))].
    destruct (visited s x (4 * k + ci)) eqn:Hvis; cbn [negb] in *; [exists t; cbn [fst snd feeds] in *; subst; exact (conj eq_refl (conj eq_refl (conj O Vv))) |].
    cbn [fst snd feeds next] in *. destruct Hq as (q1 & -> & ->). eexists. split; [reflexivity |]. cbn [d_q]. split; [reflexivity |].
    split; cbn [d_f d_v]; [apply ok_refined; assumption | apply vals_refine; assumption].
  Qed.
  Lemma ref_dstep_raw : forall x k ci, 0 <= ci < 4 -> inside B x (4 * k + ci) = true ->
    dsim B r true (fun s => before_ref B p s x (4 * k + ci))
      (dec_ref_step_raw (Z.shiftr (Z.shiftl 1 bpno) 1) (flag_at (width B) x k) (dec_data (width B) k x ci) ci)
      (refinement_step B p x (4 * k + ci)).
  Proof.
    intros x k ci Hc Hin t s q [O Vv] (C & Lv) Hq. pose proof (proj1 O) as R. unfold dec_ref_step_raw, refinement_step, dec_data in *. cbv zeta.
    rewrite (read_to_refine B (d_f t) s (visited s) x k ci R Hc Hin).
    destruct (significant s x (4 * k + ci)) eqn:Hs; cbn [andb] in *; [| exists t; cbn [fst snd feeds] in *; subst; exact (conj eq_refl (conj eq_refl (conj O Vv)))].
    destruct (visited s x (4 * k + ci)) eqn:Hvis; cbn [negb] in *; [exists t; cbn [fst snd feeds] in *; subst; exact (conj eq_refl (conj eq_refl (conj O Vv))) |].
    cbn [fst snd feeds next] in *. destruct Hq as (q1 & E1 & ->). assert (E1' : raw_decode (d_q t) = (bit_at B p x (4 * k + ci), q1)) by congruence. rewrite E1'.
    eexists. split; [reflexivity |]. cbn [d_q]. split; [reflexivity |].
    split; cbn [d_f d_v]; [apply ok_refined; assumption | apply vals_refine; assumption].
  Qed.

  (** [early]: the row is known to be unvisited and insignificant. *)
  Lemma cln_dstep : forall check x k ci vsc, 0 <= ci < 4 -> inside B x (4 * k + ci) = true -> (ci = 0 -> vsc = causal B) ->
    dsim B r false (fun s => before_cln B p s x (4 * k + ci) /\ (check = true \/ (significant s x (4 * k + ci) = false /\ visited s x (4 * k + ci) = false)))
      (dec_cln_step check false (width B) (band B) oph (flag_at (width B) x k) (dec_data (width B) k x ci) ci vsc)
      (cleanup_step B p x (4 * k + ci)).
  Proof.
    intros check x k ci vsc Hc Hin Hvs t s q [O Vv] [(C & Lv) Hch] Hq. pose proof (proj1 O) as R. unfold dec_cln_step, cleanup_step, dec_data in *. cbv zeta.
    rewrite (read_quiet B (d_f t) s (visited s) x k ci R Hc Hin).
    assert (Ec : negb check || negb (significant s x (4 * k + ci)) && negb (visited s x (4 * k + ci)) = negb (significant s x (4 * k + ci)) && negb (visited s x (4 * k + ci))).
    { destruct Hch as [-> | [-> ->]]; [reflexivity | apply orb_true_r]. }
    rewrite Ec. clear Ec Hch.
    destruct (significant s x (4 * k + ci)) eqn:Hs; cbn [negb andb] in *; [exists t; cbn [fst snd feeds] in *; subst; exact (conj eq_refl (conj eq_refl (conj O Vv))) |].
    destruct (visited s x (4 * k + ci)) eqn:Hvis; cbn [negb orb] in *; [exists t; cbn [fst snd feeds] in *; subst; exact (conj eq_refl (conj eq_refl (conj O Vv))) |].
    pose proof (ok_code_zero false B p (d_f t) s (visited s) x k ci vsc G O Hc Hin Hvs) as O1.
    pose proof (code_zero_out false B p s x (4 * k + ci)) as Eo. pose proof (code_zero_visited false B p s x (4 * k + ci)) as Ev.
    pose proof (vals_zero false (d_v t) s x (4 * k + ci) Vv Hin C Hs Lv) as V1.
    rewrite (read_zc B (d_f t) s (visited s) x k ci G R Hc Hin).
    pose proof (read_sc B (d_f t) s (visited s) x k ci R Hc Hin) as Rs. cbv zeta in Rs.
    destruct (code_zero false B p x (4 * k + ci) s) as [s1 o1]. cbn [fst snd] in *. subst o1. rewrite <- Ev in O1. unfold after_zero in O1.
    cbn [feeds next] in Hq. destruct Hq as (q1 & -> & Hq). unfold sign_symbol in Hq. rewrite <- Rs in Hq. cbn [fst snd] in Hq.
    destruct (bit_cases B p x (4 * k + ci)) as [E | E]; rewrite E in *; cbn [Z.eqb Pos.eqb negb feeds next] in *.
    - subst q. eexists. split; [reflexivity |]. cbn [d_q]. split; [reflexivity |]. split; cbn [d_f d_v]; assumption.
    - destruct Hq as (q2 & -> & ->). rewrite flip_sign.
      eexists. split; [reflexivity |]. cbn [d_q]. split; [reflexivity |]. split; cbn [d_f d_v]; assumption.
  Qed.

  (** ** Scans *)
  Lemma in_rows_ci : forall k lim y, In y (map (fun ci => 4 * k + ci) (range 0 lim)) -> exists ci, y = 4 * k + ci /\ 0 <= ci < lim.
  Proof. intros k lim y I. apply in_map_iff in I. destruct I as (ci & <- & I). rewrite range0, in_upto in I. exists ci. auto. Qed.

  Lemma nodup_range : forall lo hi, NoDup (range lo hi).
  Proof. intros. unfold range. apply FinFun.Injective_map_NoDup; [intros a b E; lia | apply seq_NoDup]. Qed.

  (** The rows of a column. *)
  Lemma dsim_rows : forall raw (D : Z -> dstep) (S : Z -> step) (P : state -> Z -> Z -> Prop) x k lo hi, local P ->
    (forall ci, lo <= ci < hi -> dsim B r raw (fun s => P s x (4 * k + ci)) (D ci) (S (4 * k + ci))) ->
    (forall s y x' y', x' <> x \/ y' <> y -> same s (fst (S y s)) x' y') ->
    dsim B r raw (fun s => forall ci, lo <= ci < hi -> P s x (4 * k + ci)) (dsteps (map D (range lo hi))) (steps (map S (map (fun ci => 4 * k + ci) (range lo hi)))).
  Proof.
    intros raw D S P x k lo hi LP H1 H2. rewrite map_map.
    assert (IR : forall ci, In ci (range lo hi) <-> lo <= ci < hi).
    { intros ci. unfold range. rewrite in_map_iff. split; [intros (n & <- & I); apply in_seq in I; lia |].
      intros I. exists (Z.to_nat (ci - lo)). split; [lia |]. apply in_seq. lia. }
    pose proof (dsim_list B r raw D (fun ci => S (4 * k + ci)) (fun ci s => P s x (4 * k + ci)) (range lo hi) (nodup_range lo hi)) as L.
    intros t s q O HP. apply L; try assumption.
    - intros ci I. apply H1, IR, I.
    - intros c c' s0 _ _ Hne. apply LP. apply H2. right. lia.
    - intros ci I. apply HP, IR, I.
  Qed.

  Lemma dsim_columns : forall raw (df dl : Z * Z -> dstep) (st : Z * Z -> step) (P : state -> Z -> Z -> Prop), local P ->
    (forall k x s x' y', x' <> x \/ ~ In y' (rows B k) -> same s (fst (st (k, x) s)) x' y') ->
    (forall k x, 0 <= k < height B / 4 -> 0 <= x < width B -> dsim B r raw (fun s => forall y, In y (rows B k) -> P s x y) (df (k, x)) (st (k, x))) ->
    (forall x, 0 < height B mod 4 -> 0 <= x < width B -> dsim B r raw (fun s => forall y, In y (rows B (height B / 4)) -> P s x y) (dl (height B / 4, x)) (st (height B / 4, x))) ->
    dsim B r raw (everywhere B P) (dsteps (map df (full_columns (width B) (height B)) ++ map dl (last_columns (width B) (height B)))) (steps (map st (columns B))).
  Proof.
    intros raw df dl st P LP Hf H1 H2.
    set (D := fun c : Z * Z => if fst c <? height B / 4 then df c else dl c).
    assert (E : map df (full_columns (width B) (height B)) ++ map dl (last_columns (width B) (height B)) = map D (columns B)).
    { rewrite columns_eq by (destruct G; lia). rewrite map_app. f_equal; apply map_ext_in; intros [k x] I; unfold D; cbn [fst].
      - apply full_in in I. rewrite (proj2 (Z.ltb_lt _ _)) by lia. reflexivity.
      - apply last_in in I. rewrite (proj2 (Z.ltb_ge _ _)) by lia. reflexivity. }
    rewrite E.
    pose proof (dsim_list B r raw D st (fun c s => forall y, In y (rows B (fst c)) -> P s (snd c) y) (columns B) (columns_nodup B)) as L.
    intros t s q O HP. apply L; try assumption.
    - intros [k x] I. pose proof I as I'. apply columns_in in I'. rewrite columns_eq in I by (destruct G; lia). apply in_app_or in I. unfold D. cbn [fst snd]. destruct I as [I | I].
      + apply full_in in I. rewrite (proj2 (Z.ltb_lt _ _)) by lia. apply H1; lia.
      + apply last_in in I. rewrite (proj2 (Z.ltb_ge _ _)) by lia. destruct I as (-> & I1 & I2). apply H2; lia.
    - intros [k x] [k' x'] s0 I I' Hne HP0 y Iy. cbn [fst snd] in *. apply (LP s0); [| apply HP0, Iy]. apply Hf.
      destruct (Z.eq_dec x' x) as [-> |]; [right | left; assumption]. intros J. apply rows_in in Iy, J. assert (k = k') by lia. congruence.
    - intros [k x] I y Iy. cbn [fst snd] in *. apply columns_in in I. apply rows_in in Iy. apply HP, inside_true; lia.
  Qed.

  Lemma guard_dsim : forall raw P (D : dstep) l x k, dsim B r raw P D (steps l) ->
    (forall F s, Ok B F s (visited s) -> (F (flag_at (width B) x k) =? 0) = true -> Forall (fun f : step => f s = (s, [])) l) ->
    dsim B r raw P (fun t => if d_f t (flag_at (width B) x k) =? 0 then Some t else D t) (steps l).
  Proof.
    intros raw P D l x k H1 H2 t s q O HP Hq. destruct (d_f t (flag_at (width B) x k) =? 0) eqn:C; [| apply H1; assumption].
    rewrite (steps_idle l s (H2 (d_f t) s (proj1 O) C)) in *. cbn [fst snd feeds] in *. exists t. auto.
  Qed.

  Lemma dsim_weaken : forall raw (P P' : state -> Prop) D S, (forall s, P' s -> P s) -> dsim B r raw P D S -> dsim B r raw P' D S.
  Proof. intros raw P P' D S H H1 t s q O HP. apply H1; auto. Qed.

  Lemma full_inside : forall k x ci, 0 <= k < height B / 4 -> 0 <= x < width B -> 0 <= ci < 4 -> inside B x (4 * k + ci) = true.
  Proof. intros. pose proof (Z.mul_div_le (height B) 4 ltac:(lia)). apply inside_true; lia. Qed.
  Lemma last_inside : forall x ci, 0 <= x < width B -> 0 <= ci < height B mod 4 -> inside B x (4 * (height B / 4) + ci) = true.
  Proof.
    intros. pose proof (Z.div_mod (height B) 4 ltac:(lia)). pose proof (Z.div_pos (height B) 4 ltac:(destruct G; lia) ltac:(lia)). apply inside_true; lia.
  Qed.
  Lemma full_row : forall k ci, 0 <= k < height B / 4 -> 0 <= ci < 4 -> In (4 * k + ci) (rows B k).
  Proof. intros. pose proof (Z.mul_div_le (height B) 4 ltac:(lia)). apply rows_in. lia. Qed.
  Lemma last_row : forall ci, 0 <= ci < height B mod 4 -> In (4 * (height B / 4) + ci) (rows B (height B / 4)).
  Proof. intros. pose proof (Z.div_mod (height B) 4 ltac:(lia)). pose proof (Z.mod_pos_bound (height B) 4 ltac:(lia)). apply rows_in. lia. Qed.

  Theorem dec_sigpass_sim : forall raw, dsim B r raw (everywhere B (before_sig B p)) (dec_sigpass raw (width B) (height B) (band B) bpno sty) (significance_pass raw B p).
  Proof.
    intros raw. unfold dec_sigpass, significance_pass. cbv zeta. apply dsim_columns; [apply local_sig | | |].
    - intros k x s x' y' H. cbn [fst snd]. apply (steps_other _ x); [intros; apply sig_other; assumption | assumption].
    - intros k x Hk Hx. cbn [fst snd]. rewrite rows_full by lia.
      apply (guard_dsim raw _ (dsteps (map (fun ci => (if raw then _ else _)) (range 0 4)))).
      + apply (dsim_weaken raw (fun s => forall ci, 0 <= ci < 4 -> before_sig B p s x (4 * k + ci))).
        { intros s H ci Hc. apply H. apply (in_map (fun ci => 4 * k + ci)). rewrite range0. apply in_upto. exact Hc. }
        apply (dsim_rows raw _ (significance_step raw B p x) (before_sig B p)); [apply local_sig | | intros; apply sig_other; assumption].
        intros ci Hc. destruct raw; [apply sig_dstep_raw | apply sig_dstep_mqc]; try lia; try (apply full_inside; assumption); intros ->; rewrite Hv; reflexivity.
      + intros F s O C. apply (sig_idle B p) with (F := F); try assumption; [lia |]. intros ci Hc. apply full_inside; lia.
    - intros x Hmod Hx. cbn [fst snd]. rewrite rows_last by reflexivity.
      apply (dsim_weaken raw (fun s => forall ci, 0 <= ci < height B mod 4 -> before_sig B p s x (4 * (height B / 4) + ci))).
      { intros s H ci Hc. apply H. apply (in_map (fun ci => 4 * (height B / 4) + ci)). rewrite range0. apply in_upto. exact Hc. }
      apply (dsim_rows raw _ (significance_step raw B p x) (before_sig B p)); [apply local_sig | | intros; apply sig_other; assumption].
      pose proof (Z.mod_pos_bound (height B) 4 ltac:(lia)).
      intros ci Hc. destruct raw; [apply sig_dstep_raw | apply sig_dstep_mqc]; try lia; try (apply last_inside; assumption); intros ->; rewrite Hv; reflexivity.
  Qed.

  Lemma no_sigma : forall w, (w =? 0) = true -> (Z.land w T1_SIGMA_COLUMN =? 0) = true.
  Proof. intros w H. apply Z.eqb_eq in H. subst. reflexivity. Qed.

  Theorem dec_refpass_sim : forall raw, dsim B r raw (everywhere B (before_ref B p)) (dec_refpass raw (width B) (height B) bpno) (refinement_pass B p).
  Proof.
    intros raw. unfold dec_refpass, refinement_pass. cbv zeta. apply dsim_columns; [apply local_ref | | |].
    - intros k x s x' y' H. cbn [fst snd]. apply (steps_other _ x); [intros; apply ref_other; assumption | assumption].
    - intros k x Hk Hx. cbn [fst snd]. rewrite rows_full by lia.
      apply (guard_dsim raw _ (dsteps (map (fun ci => (if raw then _ else _)) (range 0 4)))).
      + apply (dsim_weaken raw (fun s => forall ci, 0 <= ci < 4 -> before_ref B p s x (4 * k + ci))).
        { intros s H ci Hc. apply H. apply (in_map (fun ci => 4 * k + ci)). rewrite range0. apply in_upto. exact Hc. }
        apply (dsim_rows raw _ (refinement_step B p x) (before_ref B p)); [apply local_ref | | intros; apply ref_other; assumption].
        intros ci Hc. destruct raw; [apply ref_dstep_raw | apply ref_dstep_mqc]; try lia; apply full_inside; assumption.
      + intros F s O C. apply (ref_idle B p) with (F := F); try assumption; [lia | | left; apply no_sigma, C]. intros ci Hc. apply full_inside; lia.
    - intros x Hmod Hx. cbn [fst snd]. rewrite rows_last by reflexivity.
      apply (dsim_weaken raw (fun s => forall ci, 0 <= ci < height B mod 4 -> before_ref B p s x (4 * (height B / 4) + ci))).
      { intros s H ci Hc. apply H. apply (in_map (fun ci => 4 * (height B / 4) + ci)). rewrite range0. apply in_upto. exact Hc. }
      apply (dsim_rows raw _ (refinement_step B p x) (before_ref B p)); [apply local_ref | | intros; apply ref_other; assumption].
      pose proof (Z.mod_pos_bound (height B) 4 ltac:(lia)).
      intros ci Hc. destruct raw; [apply ref_dstep_raw | apply ref_dstep_mqc]; try lia; apply last_inside; assumption.
  Qed.

  (** ** The clean-up pass *)
  Lemma dsteps_app : forall l l' t, dsteps (l ++ l') t = match dsteps l t with None => None | Some t => dsteps l' t end.
  Proof. induction l as [| d l IH]; intros l' t; cbn [app dsteps]; [reflexivity |]. destruct (d t); [apply IH | reflexivity]. Qed.

  (** Clearing the visited marks of a column. *)
  Lemma clear_ok : forall t s x k, DOk B r t s -> 0 <= x < width B -> 0 <= k < stripes B ->
    exists t', clear_pi (flag_at (width B) x k) t = Some t' /\ d_q t' = d_q t /\
      DOk B r t' (fold_left (fun s y => set_visited false s x y) (rows B k) s).
  Proof.
    intros t s x k [[R S] Vv] Hx Hk. unfold clear_pi. eexists. split; [reflexivity |]. cbn [d_q]. split; [reflexivity |].
    pose proof (unvisit x k (upto (Z.min 4 (height B - 4 * k))) s) as U. cbv zeta in U. fold (rows B k) in U. destruct U as (E1 & E2 & E3 & E4).
    split; cbn [d_f d_v].
    - apply (ok_ext B _ s (unmark (visited s) x k [0; 1; 2; 3])); [split; [| exact S] | exact E1 | exact E2 |].
      + apply rel_unmark; try assumption; [repeat constructor; lia |].
        intros b Hb. rewrite not32_bit by exact Hb. f_equal. change T1_PI_ALL with (mk [21; 24; 27; 30]). rewrite testbit_mk by pos_list.
        cbn [existsb]. change (21 + 3 * 0) with 21. change (21 + 3 * 1) with 24. change (21 + 3 * 2) with 27. change (21 + 3 * 3) with 30.
        rewrite (Z.eqb_sym b 21), (Z.eqb_sym b 24), (Z.eqb_sym b 27), (Z.eqb_sym b 30). reflexivity.
      + intros x' y' Hin. rewrite E4. unfold unmark. destruct (x' =? x); [| reflexivity]. cbn [andb].
        apply inside_bounds in Hin.
        replace (existsb (fun r => y' =? 4 * k + r) (upto (Z.min 4 (height B - 4 * k)))) with (existsb (fun r => y' =? 4 * k + r) [0; 1; 2; 3]); [reflexivity |].
        apply eq_true_iff_eq. rewrite !existsb_exists. split; intros (c & I & E); apply Z.eqb_eq in E; exists c; (split; [| apply Z.eqb_eq, E]).
        * apply in_upto. assert (0 <= c < 4) by (cbn [In] in I; lia). lia.
        * apply in_upto in I. cbn [In]. lia.
    - intros x' y' Hin. rewrite E3. apply Vv, Hin.
  Qed.

  (** Rows one by one, then the marks. *)
  Lemma rows_then_clear : forall check (vs : Z -> bool) t s x k lo hi q, DOk B r t s -> 0 <= x < width B -> 0 <= k < stripes B -> 0 <= lo -> hi <= 4 ->
    (forall ci, lo <= ci < hi -> inside B x (4 * k + ci) = true) -> (forall ci, ci = 0 -> vs ci = causal B) ->
    (forall ci, lo <= ci < hi -> before_cln B p s x (4 * k + ci) /\ (check = true \/ (significant s x (4 * k + ci) = false /\ visited s x (4 * k + ci) = false))) ->
    let st := steps (map (cleanup_step B p x) (map (fun ci => 4 * k + ci) (range lo hi))) s in
    feeds false (snd st) (d_q t) q ->
    exists t', dsteps (map (fun ci => dec_cln_step check false (width B) (band B) oph (flag_at (width B) x k) (dec_data (width B) k x ci) ci (vs ci)) (range lo hi) ++ [clear_pi (flag_at (width B) x k)]) t = Some t' /\
      d_q t' = q /\ DOk B r t' (fold_left (fun s y => set_visited false s x y) (rows B k) (fst st)).
  Proof.
    intros check vs t s x k lo hi q O Hx Hk Hlo Hhi Hin Hvs HP. cbv zeta. intros Hq.
    set (P := fun s x y => before_cln B p s x y /\ (check = true \/ (significant s x y = false /\ visited s x y = false))).
    assert (LP : local P).
    { intros s1 s2 x' y' Sm [H1 H2]. split; [eapply local_cln; eassumption |]. destruct Sm as (-> & -> & _). exact H2. }
    destruct (dsim_rows false (fun ci => dec_cln_step check false (width B) (band B) oph (flag_at (width B) x k) (dec_data (width B) k x ci) ci (vs ci))
      (cleanup_step B p x) P x k lo hi LP) with (t := t) (s := s) (q := q) as (t1 & E1 & Eq1 & O1); try assumption.
    - intros ci Hc. apply cln_dstep; [lia | apply Hin, Hc | apply Hvs].
    - intros. apply cln_other. assumption.
    - rewrite dsteps_app, E1. destruct (clear_ok t1 _ x k O1 Hx Hk) as (t2 & E2 & Eq2 & O2). cbn [dsteps]. rewrite E2. exists t2. split; [reflexivity |].
      split; [congruence | exact O2].
  Qed.

  Lemma vals_levels : forall x l v s, vals B r v s ->
    (forall y, In y l -> inside B x y = true /\ known_value r (magnitude B x y) (negative B x y) p = 0 /\ known_value r (magnitude B x y) (negative B x y) (level s x y) = 0) ->
    vals B r v (fold_left (fun s y => set_level p s x y) l s).
  Proof.
    intros x l v. induction l as [| a l IH]; intros s Vv H; cbn [fold_left]; [exact Vv |].
    destruct (H a (or_introl eq_refl)) as (Ha & K1 & K2). apply IH.
    - apply (vals_keep B r v s _ x a); try assumption.
      + intros. cbn [set_level level]. apply set_other. assumption.
      + cbn [set_level level]. rewrite set_same. congruence.
    - intros y I. destruct (H y (or_intror I)) as (Hy & K3 & K4). repeat split; try assumption. cbn [set_level level]. unfold set.
      destruct ((x =? x) && (y =? a)); assumption.
  Qed.

  Lemma run_bits : forall j, 0 <= j < 4 -> Z.lor (shl (j / 2) 1) (j mod 2) = j.
  Proof. intros j H. destruct (row4 j H) as [-> | [-> | [-> | ->]]]; reflexivity. Qed.

  Lemma zeros_before : forall x l y, In y (firstn (leading_zeros B p x l) l) -> bit_at B p x y = 0.
  Proof.
    intros x l. induction l as [| a l IH]; intros y I; cbn [leading_zeros] in I; [destruct I |].
    destruct (bit_cases B p x a) as [E | E]; rewrite E in I; cbn [Z.eqb Pos.eqb firstn] in I; [| destruct I].
    destruct I as [<- | I]; [exact E | apply IH, I].
  Qed.
  Lemma one_at : forall x l y l', skipn (leading_zeros B p x l) l = y :: l' -> bit_at B p x y = 1.
  Proof.
    intros x l y l'. induction l as [| a l IH]; intros E; cbn [leading_zeros] in E; [discriminate |].
    destruct (bit_cases B p x a) as [C | C]; rewrite C in E; cbn [Z.eqb Pos.eqb skipn] in E; [apply IH, E | congruence].
  Qed.

  Theorem dec_clnpass_sim : dsim B r false (everywhere B (before_cln B p)) (dec_clnpass (width B) (height B) (band B) bpno sty) (cleanup_pass B p).
  Proof.
    unfold dec_clnpass, cleanup_pass. cbv zeta. apply dsim_columns; [apply local_cln | | |].
    - intros k x s x' y' H. cbn [fst snd]. apply column_other. assumption.
    - intros k x Hk Hx t s q O HP Hq. cbn [fst snd] in *.
      assert (Hin : forall ci, 0 <= ci < 4 -> inside B x (4 * k + ci) = true) by (intros; apply full_inside; lia).
      assert (Hks : 0 <= k < stripes B) by (apply (inside_stripe B x k 0); [lia | apply Hin; lia]).
      assert (HPc : forall ci, 0 <= ci < 4 -> before_cln B p s x (4 * k + ci)) by (intros; apply HP, full_row; lia).
      rewrite (column_still B (d_f t) s (visited s) x k G (proj1 O) Hk Hx).
      unfold cleanup_column in *. replace (length (rows B k)) with 4%nat in * by (rewrite rows_full by lia; reflexivity). cbn [Nat.eqb andb] in *.
      change (forallb (fun y => negb (significant s x y) && negb (visited s x y) && negb (any_seen B s x y))) with (forallb (still B s x)).
      destruct (forallb (still B s x) (rows B k)) eqn:St.
      + rewrite forallb_forall in St.
        assert (Sz : forall ci, 0 <= ci < 4 -> significant s x (4 * k + ci) = false /\ visited s x (4 * k + ci) = false).
        { intros ci Hc. specialize (St _ (full_row k ci Hk Hc)). unfold still in St. rewrite !andb_true_iff, !negb_true_iff in St. tauto. }
        assert (Sh : forall ci, 0 <= ci < 4 -> Z.shiftr (magnitude B x (4 * k + ci)) (p + 1) = 0 /\ level s x (4 * k + ci) = p + 1).
        { intros ci Hc. destruct (Sz ci Hc) as [S1 S2]. destruct (HPc ci Hc) as [C L]. rewrite S1, S2 in L. cbn [orb] in L. split; [| exact L].
          unfold consistent in C. rewrite S1, L in C. symmetry in C. apply negb_false_iff, Z.eqb_eq in C. exact C. }
        assert (Un : forall l s1, visited s1 = visited s -> forall x' y', visited (fold_left (fun s y => set_visited false s x y) (map (fun ci => 4 * k + ci) l) s1) x' y' = unmark (visited s) x k l x' y').
        { intros l s1 E x' y'. destruct (unvisit x k l s1) as (_ & _ & _ & U). rewrite U, E. reflexivity. }
        change T1_CTXNO_AGG with 17. change T1_CTXNO_UNI with 18.
        set (n := leading_zeros B p x (rows B k)) in *.
        assert (Hn : (n <= 4)%nat) by (unfold n; etransitivity; [apply leading_le |]; rewrite rows_full by lia; rewrite map_length, range_length; reflexivity).
        pose proof (fun y => zeros_before x (rows B k) y) as Zb. pose proof (fun y l' => one_at x (rows B k) y l') as Oa. fold n in Zb, Oa.
        set (s0 := fold_left (fun s y => set_level p s x y) (firstn n (rows B k)) s) in *.
        assert (L0 : significant s0 = significant s /\ refined s0 = refined s /\ visited s0 = visited s) by (apply levels_same).
        destruct L0 as (L1 & L2 & L3).
        assert (O0 : DOk B r t s0).
        { destruct O as [O Vv]. split; [apply (ok_ext B _ s (visited s)); try assumption; intros; rewrite L3; reflexivity |].
          apply vals_levels; [exact Vv |]. intros y I. pose proof (firstn_in _ _ _ I) as I'. apply rows_in in I'. pose proof (Zb y I) as Bz.
          set (ci := y - 4 * k). assert (Ey : y = 4 * k + ci) by (unfold ci; lia). assert (Hc : 0 <= ci < 4) by lia. rewrite Ey in *.
          destruct (Sh ci Hc) as [S1 S2]. repeat split; [apply Hin, Hc | |]; rewrite ?S2; apply known_zero; [| exact S1].
          rewrite (shiftr_bit B p x (4 * k + ci) ltac:(lia) S1). exact Bz. }
        assert (Lk : forall ci, Z.of_nat n <= ci < 4 -> same s s0 x (4 * k + ci)).
        { intros ci Hc. apply (fold_other _ x); [intros; apply level_other; assumption | right]. rewrite rows_full by lia. rewrite firstn_map.
          destruct (range_split n 0 4 ltac:(lia)) as [-> _]. rewrite Z.add_0_l. intros J. apply in_rows_ci in J. destruct J as (c & E & J). lia. }
        destruct (skipn n (rows B k)) as [| y rest] eqn:Ek.
        * cbn [snd fst feeds next] in *. destruct Hq as (q1 & -> & ->). cbn [Z.eqb]. eexists. split; [reflexivity |]. cbn [d_q]. split; [reflexivity |].
          destruct O0 as [O0 V0]. rewrite rows_full in * by lia. destruct (unvisit x k (range 0 4) s0) as (E1 & E2 & E3 & E4).
          split; cbn [d_f d_v].
          -- apply (ok_ext B _ s0 (visited s0)); try assumption. intros x' y' Hi'. rewrite E4. unfold unmark. destruct (Z.eqb_spec x' x) as [-> |]; [| reflexivity]. cbn [andb].
             destruct (existsb (fun r => y' =? 4 * k + r) (range 0 4)) eqn:Ex; [| reflexivity]. apply existsb_exists in Ex. destruct Ex as (c & I & E).
             apply Z.eqb_eq in E. subst y'. rewrite range0 in I. apply in_upto in I. rewrite L3. symmetry. apply Sz, I.
          -- intros x' y' Hi'. rewrite E3. apply V0, Hi'.
        * rewrite rows_full in Ek by lia. rewrite skipn_map in Ek. destruct (range_split n 0 4 ltac:(lia)) as [_ Er]. rewrite Er, Z.add_0_l in Ek.
          assert (Hj : 0 <= Z.of_nat n < 4).
          { destruct (Nat.eq_dec n 4) as [E4 | N4]; [| lia]. rewrite E4 in Ek. rewrite (range_nil (Z.of_nat 4)) in Ek by lia. discriminate. }
          set (j := Z.of_nat n) in *. rewrite (range_cons j 4) in Ek by lia. cbn [map] in Ek.
          assert (Ey : y = 4 * k + j) by congruence. assert (Ers : rest = map (fun ci => 4 * k + ci) (range (j + 1) 4)) by congruence.
          pose proof (Oa y rest eq_refl) as B1. subst y rest.
          (* the row the run ends at *)
          pose proof (ok_code_sign false B (d_f t) s0 (visited s0) x k j ((j =? 0) && styled sty CBLKSTY_VSC) G (proj1 O0) Hj (Hin j Hj)) as O1.
          specialize (O1 ltac:(intros ->; rewrite Hv; reflexivity)).
          pose proof (code_sign_out false B s0 x (4 * k + j)) as Eo.
          assert (Ev : visited (fst (code_sign false B x (4 * k + j) s0)) = visited s0 /\ level (fst (code_sign false B x (4 * k + j) s0)) = level s0)
            by (unfold code_sign; destruct (sign_context B s0 x (4 * k + j)); split; reflexivity).
          pose proof (fun x' y' H => code_sign_other false B s0 x (4 * k + j) x' y' H) as Oth.
          pose proof (read_sc B (d_f t) s0 (visited s0) x k j (proj1 (proj1 O0)) Hj (Hin j Hj)) as Rs. cbv zeta in Rs.
          destruct (code_sign false B x (4 * k + j) s0) as [s1 o1]. cbn [fst snd] in Eo, O1, Ev, Oth. destruct Ev as [Ev El]. subst o1.
          unfold sign_symbol in Hq. rewrite <- Rs in Hq. cbn [fst snd] in Hq.
          set (s1' := set_level p s1 x (4 * k + j)) in *.
          set (v1 := upd (d_v t) (dec_data (width B) k x j) (set_sign (sign_at B x (4 * k + j)) oph)).
          set (f1 := update_flags (d_f t) (flag_at (width B) x k) j (sign_at B x (4 * k + j)) (width B + 2) ((j =? 0) && styled sty CBLKSTY_VSC)) in *.
          assert (V1 : vals B r v1 s1').
          { unfold v1, dec_data. apply (vals_upd B r (d_v t) s0); [apply O0 | apply Hin, Hj | |].
            - intros x' y' Hne. unfold s1'. cbn [set_level level]. rewrite set_other by exact Hne. rewrite El. reflexivity.
            - unfold s1'. cbn [set_level level]. rewrite set_same. apply set_sign_value; try lia.
              destruct (Sh j Hj) as [S1 _]. rewrite (shiftr_bit B p x (4 * k + j) ltac:(lia) S1). exact B1. }
          assert (O1' : Ok B f1 s1' (visited s1')).
          { unfold s1'. cbn [set_level visited]. rewrite Ev. apply (ok_ext B f1 s1 (visited s0)); [exact O1 | reflexivity | reflexivity |]. reflexivity. }
          pose proof (rows_then_clear false (fun ci => (ci =? 0) && styled sty CBLKSTY_VSC)) as RC.
          destruct (steps (map (cleanup_step B p x) (map (fun ci => 4 * k + ci) (range (j + 1) 4))) s1') as [s2 o2] eqn:E2.
          cbn [fst snd app feeds next] in *. destruct Hq as (q1 & -> & q2 & E_2 & q3 & E_3 & q4 & E_4 & Hq).
          cbn [Z.eqb Pos.eqb]. rewrite E_2, E_3, run_bits by exact Hj.
          rewrite (range_cons j 4) by lia. cbn [map app dsteps].
          unfold dec_cln_step at 1. cbv zeta. cbn [negb orb d_f d_v d_q]. rewrite Z.eqb_refl, E_4, flip_sign.
          rewrite (map_ext_in _ (fun ci => dec_cln_step false false (width B) (band B) oph (flag_at (width B) x k) (dec_data (width B) k x ci) ci ((ci =? 0) && styled sty CBLKSTY_VSC))).
          2:{ intros ci I. replace (ci =? j) with false; [reflexivity |]. symmetry. apply Z.eqb_neq. unfold range in I. apply in_map_iff in I. destruct I as (c & <- & _). lia. }
          specialize (RC (mkDst f1 v1 q4) s1' x k (j + 1) 4 q (conj O1' V1) Hx Hks ltac:(lia) ltac:(lia) ltac:(intros; apply Hin; lia)).
          cbv zeta in RC. rewrite E2 in RC. apply RC; [intros ci ->; rewrite Hv; reflexivity | | exact Hq].
          intros ci Hc. assert (Sm : same s s1' x (4 * k + ci)).
          { eapply same_trans; [apply Lk; lia |]. eapply same_trans; [apply Oth; right; lia |]. apply level_other. right. lia. }
          split; [eapply local_cln; [exact Sm | apply HPc; lia] | right]. destruct Sm as (-> & -> & _). apply Sz. lia.
      + pose proof (rows_then_clear true (fun ci => (ci =? 0) && styled sty CBLKSTY_VSC) t s x k 0 4 q O Hx Hks ltac:(lia) ltac:(lia) Hin ltac:(intros ci ->; rewrite Hv; reflexivity)) as RC.
        specialize (RC ltac:(intros ci Hc; split; [apply HPc, Hc | left; reflexivity])). cbv zeta in RC. rewrite <- (rows_full B k) in RC by lia.
        destruct (steps (map (cleanup_step B p x) (rows B k)) s) as [s2 o2]. cbn [fst snd] in *. apply RC, Hq.
    - intros x Hmod Hx t s q O HP Hq. cbn [fst snd] in *.
      pose proof (Z.mod_pos_bound (height B) 4 ltac:(lia)) as Mb.
      assert (Hin : forall ci, 0 <= ci < height B mod 4 -> inside B x (4 * (height B / 4) + ci) = true) by (intros; apply last_inside; lia).
      assert (Hks : 0 <= height B / 4 < stripes B) by (apply (inside_stripe B x (height B / 4) 0); [lia | apply Hin; lia]).
      unfold cleanup_column in *.
      replace (length (rows B (height B / 4)) =? 4)%nat with false in *
        by (symmetry; apply Nat.eqb_neq; rewrite rows_last by reflexivity; rewrite map_length, range_length; lia). cbn [andb] in *.
      pose proof (rows_then_clear true (fun _ => styled sty CBLKSTY_VSC) t s x (height B / 4) 0 (height B mod 4) q O Hx Hks ltac:(lia) ltac:(lia) Hin ltac:(intros ci ->; rewrite Hv; reflexivity)) as RC.
      specialize (RC ltac:(intros ci Hc; split; [apply HP, last_row, Hc | left; reflexivity])). cbv zeta in RC. rewrite <- (rows_last B (height B / 4) eq_refl) in RC.
      destruct (steps (map (cleanup_step B p x) (rows B (height B / 4))) s) as [s2 o2]. cbn [fst snd] in *. apply RC, Hq.
  Qed.
End Dec.
