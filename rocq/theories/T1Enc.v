(** The encoder's passes against those of T1Spec. *)

From Coq Require Import ZArith List Bool Lia FinFun.
From Verif Require Import Ints Mem MqModel T1Luts T1Model T1Spec T1Bits T1Rel.
Import ListNotations.
Local Open Scope Z_scope.

(** ** Scan order *)

Lemma range0 : forall n, range 0 n = upto n.
Proof. intros n. unfold range, upto. rewrite Z.sub_0_r. apply map_ext. intros i. lia. Qed.

Lemma upto_S : forall n, 0 <= n -> upto (n + 1) = upto n ++ [n].
Proof.
  intros n Hn. unfold upto. replace (Z.to_nat (n + 1)) with (S (Z.to_nat n)) by lia. rewrite seq_S, map_app. cbn [map Nat.add].
  rewrite Z2Nat.id by lia. reflexivity.
Qed.
Lemma in_upto : forall n i, In i (upto n) <-> 0 <= i < n.
Proof.
  intros n i. unfold upto. rewrite in_map_iff. split.
  - intros (m & <- & H). apply in_seq in H. lia.
  - intros H. exists (Z.to_nat i). split; [lia |]. apply in_seq. lia.
Qed.
Lemma nodup_upto : forall n, NoDup (upto n).
Proof.
  intros n. unfold upto. apply FinFun.Injective_map_NoDup; [| apply seq_NoDup]. intros a b E. lia.
Qed.
Lemma range_cons : forall lo hi, lo < hi -> range lo hi = lo :: range (lo + 1) hi.
Proof.
  intros lo hi H. unfold range. replace (Z.to_nat (hi - lo)) with (S (Z.to_nat (hi - (lo + 1)))) by lia. cbn [seq map].
  f_equal; [lia |]. rewrite <- seq_shift, map_map. apply map_ext. intros i. lia.
Qed.
Lemma range_nil : forall lo hi, hi <= lo -> range lo hi = [].
Proof. intros lo hi H. unfold range. replace (Z.to_nat (hi - lo)) with O by lia. reflexivity. Qed.

Lemma stripes_eq : forall h, 0 <= h -> (h + 3) / 4 = h / 4 + (if 0 <? h mod 4 then 1 else 0).
Proof.
  intros h Hh. pose proof (Z.div_mod h 4 ltac:(lia)). pose proof (Z.mod_pos_bound h 4 ltac:(lia)).
  destruct (Z.ltb_spec 0 (h mod 4)).
  - symmetry. apply Z.div_unique with (h mod 4 - 1); lia.
  - symmetry. apply Z.div_unique with 3; lia.
Qed.

Lemma columns_eq : forall B, 0 <= height B ->
  columns B = full_columns (width B) (height B) ++ last_columns (width B) (height B).
Proof.
  intros B Hh. unfold columns, full_columns, last_columns. rewrite stripes_eq by exact Hh. rewrite !range0.
  destruct (0 <? height B mod 4).
  - rewrite upto_S by (apply Z.div_pos; lia). rewrite flat_map_app. cbn [flat_map]. rewrite app_nil_r. reflexivity.
  - rewrite Z.add_0_r, app_nil_r. reflexivity.
Qed.

Lemma full_in : forall w h k x, In (k, x) (full_columns w h) -> 0 <= k < h / 4 /\ 0 <= x < w.
Proof.
  intros w h k x H. unfold full_columns in H. apply in_flat_map in H. destruct H as (k' & Hk & H). apply in_map_iff in H.
  destruct H as (x' & E & Hx). rewrite range0, in_upto in *. assert (k' = k) by congruence. assert (x' = x) by congruence. lia.
Qed.
Lemma last_in : forall w h k x, In (k, x) (last_columns w h) -> k = h / 4 /\ 0 < h mod 4 /\ 0 <= x < w.
Proof.
  intros w h k x H. unfold last_columns in H. destruct (Z.ltb_spec 0 (h mod 4)); [| destruct H]. apply in_map_iff in H.
  destruct H as (x' & E & Hx). rewrite range0, in_upto in *. assert (h / 4 = k) by congruence. assert (x' = x) by congruence. lia.
Qed.

Lemma rows_full : forall B k, k < height B / 4 -> rows B k = map (fun ci => 4 * k + ci) (range 0 4).
Proof.
  intros B k H. unfold rows. pose proof (Z.div_mod (height B) 4 ltac:(lia)). pose proof (Z.mod_pos_bound (height B) 4 ltac:(lia)).
  replace (Z.min 4 (height B - 4 * k)) with 4 by lia. rewrite range0. reflexivity.
Qed.
Lemma rows_last : forall B k, k = height B / 4 -> rows B k = map (fun ci => 4 * k + ci) (range 0 (height B mod 4)).
Proof.
  intros B k ->. unfold rows. pose proof (Z.div_mod (height B) 4 ltac:(lia)). pose proof (Z.mod_pos_bound (height B) 4 ltac:(lia)).
  replace (Z.min 4 (height B - 4 * (height B / 4))) with (height B mod 4) by lia. rewrite range0. reflexivity.
Qed.

(** ** One coefficient, flags only *)

(** Refined coefficients are significant. *)
Definition sane (s : state) : Prop := forall x y, refined s x y = true -> significant s x y = true.
Definition Ok (B : block) (F : mem) (s : state) (V : Z -> Z -> bool) : Prop := Rel B F s V /\ sane s.

Lemma sane_significant : forall s x y, sane s -> sane (set_significant s x y).
Proof.
  intros s x y H x' y' E. cbn [set_significant refined significant] in *. unfold set.
  destruct ((x' =? x) && (y' =? y)); [reflexivity |]. apply H, E.
Qed.
Lemma sane_refined : forall s x y, sane s -> significant s x y = true -> sane (set_refined s x y).
Proof.
  intros s x y H Hs x' y' E. cbn [set_refined refined significant] in *. unfold set in E.
  destruct ((x' =? x) && (y' =? y)) eqn:C; [| apply H, E]. apply andb_true_iff in C. destruct C as [C1 C2].
  apply Z.eqb_eq in C1, C2. subst. exact Hs.
Qed.

Lemma ok_ext : forall B F s V s' V', Ok B F s V -> significant s' = significant s -> refined s' = refined s ->
  (forall x y, inside B x y = true -> V' x y = V x y) -> Ok B F s' V'.
Proof.
  intros B F s V s' V' [R S] E1 E2 H. split.
  - apply (rel_ext B F s V); [exact R |]. intros x y Hin. rewrite E1, E2, H by exact Hin. auto.
  - intros x y. rewrite E1, E2. apply S.
Qed.

(** Flags after the value bit [v] and, if it is set, the sign. *)
Definition after_zero (B : block) (F : mem) (x k ci v : Z) (vsc : bool) : mem :=
  if negb (v =? 0) then update_flags F (flag_at (width B) x k) ci (sign_at B x (4 * k + ci)) (width B + 2) vsc else F.

Lemma bit_cases : forall B p x y, bit_at B p x y = 0 \/ bit_at B p x y = 1.
Proof. intros. unfold bit_at. destruct (Z.testbit (magnitude B x y) p); auto. Qed.

Lemma ok_code_sign : forall raw B F s V x k ci vsc, good B -> Ok B F s V -> 0 <= ci < 4 -> inside B x (4 * k + ci) = true ->
  (ci = 0 -> vsc = causal B) ->
  Ok B (update_flags F (flag_at (width B) x k) ci (sign_at B x (4 * k + ci)) (width B + 2) vsc) (fst (code_sign raw B x (4 * k + ci) s)) V.
Proof.
  intros raw B F s V x k ci vsc G [R S] Hc Hin Hv. unfold code_sign. destruct (sign_context B s x (4 * k + ci)) as [cx flip]. cbn [fst].
  split; [apply rel_significant; assumption | apply sane_significant, S].
Qed.

Lemma ok_code_zero : forall raw B p F s V x k ci vsc, good B -> Ok B F s V -> 0 <= ci < 4 -> inside B x (4 * k + ci) = true ->
  (ci = 0 -> vsc = causal B) ->
  Ok B (after_zero B F x k ci (bit_at B p x (4 * k + ci)) vsc) (fst (code_zero raw B p x (4 * k + ci) s)) V.
Proof.
  intros raw B p F s V x k ci vsc G O Hc Hin Hv. unfold code_zero, after_zero.
  destruct (bit_cases B p x (4 * k + ci)) as [-> | ->]; cbn [Z.eqb Pos.eqb negb fst].
  - apply (ok_ext B F s V); auto.
  - pose proof (ok_code_sign raw B F s V x k ci vsc G O Hc Hin Hv) as H.
    destruct (code_sign raw B x (4 * k + ci) s) as [s1 o1]. cbn [fst] in *. apply (ok_ext B _ s1 V); auto.
Qed.

(** What is emitted for it. *)
Definition sign_symbol (raw : bool) (B : block) (s : state) (x y : Z) : Z * Z :=
  (fst (sign_context B s x y), if raw then sign_at B x y else Z.lxor (sign_at B x y) (snd (sign_context B s x y))).
Lemma code_sign_out : forall raw B s x y, snd (code_sign raw B x y s) = [sign_symbol raw B s x y].
Proof. intros. unfold code_sign, sign_symbol. destruct (sign_context B s x y). reflexivity. Qed.
Lemma code_zero_out : forall raw B p s x y,
  snd (code_zero raw B p x y s) = (context_of B s x y, bit_at B p x y) :: (if bit_at B p x y =? 1 then [sign_symbol raw B s x y] else []).
Proof.
  intros. unfold code_zero. destruct (bit_at B p x y =? 1); [| reflexivity]. rewrite <- code_sign_out.
  destruct (code_sign raw B x y s). reflexivity.
Qed.
Lemma code_zero_visited : forall raw B p s x y, visited (fst (code_zero raw B p x y s)) = visited s.
Proof.
  intros. unfold code_zero, code_sign. destruct (sign_context B s x y). destruct (bit_at B p x y =? 1); reflexivity.
Qed.

Lemma ok_visited : forall B F s x k ci, good B -> Ok B F s (visited s) -> 0 <= ci < 4 -> inside B x (4 * k + ci) = true ->
  Ok B (or_at F (flag_at (width B) x k) (shl T1_PI_THIS (3 * ci))) (set_visited true s x (4 * k + ci)) (visited (set_visited true s x (4 * k + ci))).
Proof.
  intros B F s x k ci G [R S] Hc Hin. split; [| exact S].
  apply (rel_ext B _ s (set (visited s) x (4 * k + ci) true)); [apply rel_visited; assumption | auto].
Qed.
Lemma ok_refined : forall B F s x k ci p, good B -> Ok B F s (visited s) -> 0 <= ci < 4 -> inside B x (4 * k + ci) = true ->
  significant s x (4 * k + ci) = true ->
  let s' := set_level p (set_refined s x (4 * k + ci)) x (4 * k + ci) in
  Ok B (or_at F (flag_at (width B) x k) (shl T1_MU_THIS (3 * ci))) s' (visited s').
Proof.
  intros B F s x k ci p G [R S] Hc Hin Hs. cbv zeta. split.
  - apply (rel_ext B _ (set_refined s x (4 * k + ci)) (visited s)); [apply rel_refined; assumption | auto].
  - apply (sane_refined s x (4 * k + ci) S Hs).
Qed.

(** A column's word is zero when nothing is known in it or around it. *)
Lemma column_still : forall B F s V x k, good B -> Ok B F s V -> 0 <= k < height B / 4 -> 0 <= x < width B ->
  (F (flag_at (width B) x k) =? 0) = forallb (fun y => negb (significant s x y) && negb (V x y) && negb (any_seen B s x y)) (rows B k).
Proof.
  intros B F s V x k G [R S] Hk Hx.
  assert (Hh : 0 <= height B) by (destruct G; lia).
  assert (Hd : 4 * (height B / 4) <= height B) by (apply Z.mul_div_le; lia).
  assert (Hin : forall ci, 0 <= ci < 4 -> inside B x (4 * k + ci) = true) by (intros ci Hc; apply inside_true; lia).
  assert (Hks : 0 <= k < stripes B) by (apply (inside_stripe B x k 0); [lia | apply Hin; lia]).
  rewrite rows_full by lia.
  destruct (forallb _ _) eqn:E.
  - apply (word_zero _ (rel_range _ _ _ _ R x k ltac:(lia) Hks)).
    rewrite forallb_forall in E.
    assert (St : forall ci, 0 <= ci < 4 -> significant s x (4 * k + ci) = false /\ V x (4 * k + ci) = false /\ any_seen B s x (4 * k + ci) = false).
    { intros ci Hc. assert (I : In (4 * k + ci) (map (fun ci => 4 * k + ci) (range 0 4))).
      { apply (in_map (fun ci => 4 * k + ci)). rewrite range0. apply in_upto. lia. }
      specialize (E _ I). rewrite !andb_true_iff, !negb_true_iff in E. tauto. }
    assert (Sn : forall ci dx dy, 0 <= ci < 4 -> -1 <= dx <= 1 -> -1 <= dy <= 1 -> seen B s x (4 * k + ci) dx dy = false).
    { intros ci dx dy Hc Hdx Hdy. destruct (St ci Hc) as (S1 & S2 & S3).
      destruct (Z.eq_dec dx 0); [destruct (Z.eq_dec dy 0) |].
      - subst. unfold seen. rewrite !Z.add_0_r, S1, andb_false_r. reflexivity.
      - unfold any_seen in S3. apply negb_false_iff in S3. apply Z.eqb_eq in S3. unfold horizontal, vertical, diagonal, count in S3. cbn [fold_right] in S3.
        assert (dy = -1 \/ dy = 1) as [-> | ->] by lia; subst dx;
        destruct (seen B s x (4 * k + ci) (-1) (-1)), (seen B s x (4 * k + ci) 0 (-1)), (seen B s x (4 * k + ci) 1 (-1)), (seen B s x (4 * k + ci) (-1) 0),
        (seen B s x (4 * k + ci) 1 0), (seen B s x (4 * k + ci) (-1) 1), (seen B s x (4 * k + ci) 0 1), (seen B s x (4 * k + ci) 1 1); try reflexivity; discriminate.
      - unfold any_seen in S3. apply negb_false_iff in S3. apply Z.eqb_eq in S3. unfold horizontal, vertical, diagonal, count in S3. cbn [fold_right] in S3.
        assert (dx = -1 \/ dx = 1) as [-> | ->] by lia; assert (dy = -1 \/ dy = 0 \/ dy = 1) as [-> | [-> | ->]] by lia;
        destruct (seen B s x (4 * k + ci) (-1) (-1)), (seen B s x (4 * k + ci) 0 (-1)), (seen B s x (4 * k + ci) 1 (-1)), (seen B s x (4 * k + ci) (-1) 0),
        (seen B s x (4 * k + ci) 1 0), (seen B s x (4 * k + ci) (-1) 1), (seen B s x (4 * k + ci) 0 1), (seen B s x (4 * k + ci) 1 1); try reflexivity; discriminate. }
    assert (Nb : forall dx r, -1 <= dx <= 1 -> -1 <= r <= 4 -> near_bit B s (x + dx) (4 * k + r) r = false).
    { intros dx r Hdx Hr. destruct (Z.eq_dec r (-1)) as [-> |]; [| destruct (Z.eq_dec r 4) as [-> |]].
      - pose proof (Sn 0 dx (-1) ltac:(lia) Hdx ltac:(lia)) as N. rewrite <- near_seen in N by lia.
        replace (4 * k + 0 + -1) with (4 * k + -1) in N by lia. exact N.
      - pose proof (Sn 3 dx 1 ltac:(lia) Hdx ltac:(lia)) as N. rewrite <- near_seen in N by lia.
        replace (4 * k + 3 + 1) with (4 * k + 4) in N by lia. exact N.
      - pose proof (Sn r dx 0 ltac:(lia) Hdx ltac:(lia)) as N. rewrite <- near_seen in N by lia. rewrite !Z.add_0_r in N. exact N. }
    intros b Hb. destruct (guard B k b) eqn:Gd.
    { exfalso. unfold guard in Gd. rewrite !andb_true_iff, !Z.leb_le in Gd. destruct Gd as [[G1 G2] G3].
      assert ((b - 21) / 3 < 4) by (apply Z.div_lt_upper_bound; lia). lia. }
    fold (word B F x k). rewrite (rel_bit _ _ _ _ R) by (try assumption; lia).
    destruct (Z_lt_ge_dec b 18) as [L | L].
    + unfold ebit. replace (b <? 18) with true by (symmetry; apply Z.ltb_lt; lia). apply Nb.
      * pose proof (Z.mod_pos_bound b 3). lia.
      * assert (0 <= b / 3) by (apply Z.div_pos; lia). assert (b / 3 < 6) by (apply Z.div_lt_upper_bound; lia). lia.
    + pose proof (fun r Hr => Nb 0 r ltac:(lia) Hr) as N0. rewrite !Z.add_0_r in N0.
      destruct (Z.eq_dec b 18) as [-> |].
      * unfold ebit. cbn [Z.ltb Z.compare Pos.compare Pos.compare_cont Z.eqb Pos.eqb].
        replace (4 * k - 1) with (4 * k + -1) by lia. rewrite N0 by lia. reflexivity.
      * destruct (mod3_cases b ltac:(lia)) as [(r & Hr & ->) | [(r & Hr & ->) | (r & Hr & ->)]].
        -- rewrite ebit_chi, N0 by lia. reflexivity.
        -- rewrite ebit_mu by exact Hr. destruct (refined s x (4 * k + r)) eqn:M; [| apply andb_false_r].
           apply S in M. destruct (St r Hr) as (C & _). congruence.
        -- rewrite ebit_pi by exact Hr. destruct (St r Hr) as (_ & -> & _). apply andb_false_r.
  - apply Z.eqb_neq. intros Z0. apply eq_true_false_abs in E; [exact E |]. apply forallb_forall. intros y I. apply in_map_iff in I.
    destruct I as (ci & <- & I). rewrite range0, in_upto in I.
    rewrite <- (read_any B F s V x k ci R I (Hin ci I)), <- (read_quiet B F s V x k ci R I (Hin ci I)).
    rewrite Z0. unfold quiet, near. rewrite !Z.land_0_l. reflexivity.
Qed.

(** ** Encoder steps *)

Definition esim (B : block) (E : estep) (S : step) : Prop := forall F s, Ok B F s (visited s) ->
  snd (E F) = snd (S s) /\ Ok B (fst (E F)) (fst (S s)) (visited (fst (S s))).

Lemma esim_steps : forall B l l', Forall2 (esim B) l l' -> esim B (esteps l) (steps l').
Proof.
  intros B l l' H. induction H as [| e st l l' H1 H2 IH]; intros F s O; cbn [esteps steps]; [split; [reflexivity | exact O] |].
  destruct (H1 F s O) as [E1 O1]. destruct (e F) as [F1 o1]. destruct (st s) as [s1 o1']. cbn [fst snd] in *.
  destruct (IH F1 s1 O1) as [E2 O2]. destruct (esteps l F1) as [F2 o2]. destruct (steps l' s1) as [s2 o2']. cbn [fst snd] in *.
  subst. split; [reflexivity | exact O2].
Qed.

Lemma steps_idle : forall l s, Forall (fun f => f s = (s, [])) l -> steps l s = (s, []).
Proof. intros l s H. induction H as [| f l H1 H2 IH]; cbn [steps]; [reflexivity |]. rewrite H1, IH. reflexivity. Qed.

Lemma forall2_map : forall {A B C} (f : A -> B) (g : A -> C) (R : B -> C -> Prop) l, (forall a, In a l -> R (f a) (g a)) -> Forall2 R (map f l) (map g l).
Proof.
  intros A B C f g R l. induction l as [| a l IH]; intros H; cbn [map]; constructor.
  - apply H. left. reflexivity.
  - apply IH. intros b I. apply H. right. exact I.
Qed.

(** A coefficient as the encoder holds it. *)
Definition stored (B : block) (data : mem) (q x y : Z) : Prop :=
  (forall p, 0 <= p -> plane_bit (data q) (enc_one p) = bit_at B p x y) /\ smr_sign (data q) = sign_at B x y.

Definition held (B : block) (data : mem) : Prop :=
  (forall k x ci, 0 <= k < height B / 4 -> 0 <= x < width B -> 0 <= ci < 4 -> stored B data (full_data (width B) k x ci) x (4 * k + ci)) /\
  (forall x ci, 0 <= x < width B -> 0 <= ci < height B mod 4 ->
     stored B data (last_data (width B) (height B) (height B / 4) x ci) x (4 * (height B / 4) + ci)).

Section Enc.
  Variables (B : block) (data : mem) (p sty : Z).
  Hypotheses (G : good B) (Hp : 0 <= p) (Hv : causal B = styled sty CBLKSTY_VSC) (Hd : held B data).

  Lemma height_full : forall k ci, 0 <= k < height B / 4 -> 0 <= ci < 4 -> 0 <= 4 * k + ci < height B.
  Proof. intros k ci Hk Hc. pose proof (Z.mul_div_le (height B) 4 ltac:(lia)). lia. Qed.
  Lemma height_last : forall ci, 0 <= ci < height B mod 4 -> 0 <= 4 * (height B / 4) + ci < height B.
  Proof.
    intros ci Hc. pose proof (Z.div_mod (height B) 4 ltac:(lia)). pose proof (Z.div_pos (height B) 4 ltac:(destruct G; lia) ltac:(lia)). lia.
  Qed.

  Lemma sig_step : forall raw x k ci q vsc, 0 <= ci < 4 -> inside B x (4 * k + ci) = true -> stored B data q x (4 * k + ci) ->
    (ci = 0 -> vsc = causal B) ->
    esim B (enc_sig_step raw (width B) (band B) (enc_one p) (flag_at (width B) x k) data q ci vsc) (significance_step raw B p x (4 * k + ci)).
  Proof.
    intros raw x k ci q vsc Hc Hin [Hb Hs] Hvs F s O. destruct O as [R S]. unfold enc_sig_step, significance_step. cbv zeta.
    rewrite (read_quiet B F s (visited s) x k ci), (read_any B F s (visited s) x k ci) by assumption.
    destruct (negb (significant s x (4 * k + ci)) && negb (visited s x (4 * k + ci)) && any_seen B s x (4 * k + ci)); [| split; [reflexivity | split; assumption]].
    rewrite (read_zc B F s (visited s) x k ci) by assumption. rewrite Hb, Hs by exact Hp.
    pose proof (ok_code_zero raw B p F s (visited s) x k ci vsc G (conj R S) Hc Hin Hvs) as O1.
    pose proof (code_zero_out raw B p s x (4 * k + ci)) as Eo. pose proof (code_zero_visited raw B p s x (4 * k + ci)) as Ev.
    destruct (code_zero raw B p x (4 * k + ci) s) as [s1 o1]. cbn [fst snd] in *. rewrite <- Ev in O1. subst o1.
    pose proof (read_sc B F s (visited s) x k ci R Hc Hin) as Rs. cbv zeta in Rs. unfold after_zero in O1. unfold sign_symbol. rewrite <- Rs. cbn [fst snd].
    destruct (bit_cases B p x (4 * k + ci)) as [E | E]; rewrite E in *; cbn [Z.eqb Pos.eqb negb fst snd app] in *.
    - split; [reflexivity |]. apply ok_visited; assumption.
    - split; [destruct raw; reflexivity |]. apply ok_visited; assumption.
  Qed.

  Lemma ref_step : forall x k ci q, 0 <= ci < 4 -> inside B x (4 * k + ci) = true -> stored B data q x (4 * k + ci) ->
    esim B (enc_ref_step (enc_one p) (flag_at (width B) x k) data q ci) (refinement_step B p x (4 * k + ci)).
  Proof.
    intros x k ci q Hc Hin [Hb Hs] F s O. destruct O as [R S]. unfold enc_ref_step, refinement_step. cbv zeta.
    rewrite (read_to_refine B F s (visited s) x k ci) by assumption.
    destruct (significant s x (4 * k + ci)) eqn:E; cbn [andb]; [| split; [reflexivity | split; assumption]].
    destruct (negb (visited s x (4 * k + ci))); [| split; [reflexivity | split; assumption]].
    cbn [fst snd]. rewrite (read_mag B F s (visited s) x k ci) by assumption. rewrite Hb by exact Hp. split; [reflexivity |].
    apply ok_refined; try assumption. split; assumption.
  Qed.

  (** Both scans: full stripes, then the last one. *)
  Lemma esim_columns : forall (ef el : Z * Z -> estep) (st : Z * Z -> step),
    (forall k x, 0 <= k < height B / 4 -> 0 <= x < width B -> esim B (ef (k, x)) (st (k, x))) ->
    (forall x, 0 < height B mod 4 -> 0 <= x < width B -> esim B (el (height B / 4, x)) (st (height B / 4, x))) ->
    esim B (esteps (map ef (full_columns (width B) (height B)) ++ map el (last_columns (width B) (height B)))) (steps (map st (columns B))).
  Proof.
    intros ef el st H1 H2. rewrite columns_eq by (destruct G; lia). rewrite map_app. apply esim_steps, Forall2_app; apply forall2_map; intros [k x] I.
    - apply full_in in I. apply H1; lia.
    - apply last_in in I. destruct I as (-> & I1 & I2). apply H2; lia.
  Qed.

  Lemma guard_esim : forall (c : mem -> bool) E l, esim B E (steps l) ->
    (forall F s, Ok B F s (visited s) -> c F = true -> Forall (fun f => f s = (s, [])) l) ->
    esim B (fun F => if c F then (F, []) else E F) (steps l).
  Proof.
    intros c E l H1 H2 F s O. destruct (c F) eqn:C; [| apply H1, O]. rewrite (steps_idle l s (H2 F s O C)). split; [reflexivity | exact O].
  Qed.

  (** The significance pass. *)
  Lemma sig_idle : forall raw x k lim F s, Ok B F s (visited s) -> 0 <= lim <= 4 -> (forall ci, 0 <= ci < lim -> inside B x (4 * k + ci) = true) ->
    (F (flag_at (width B) x k) =? 0) = true ->
    Forall (fun f : step => f s = (s, [])) (map (significance_step raw B p x) (map (fun ci => 4 * k + ci) (range 0 lim))).
  Proof.
    intros raw x k lim F s [R S] Hl Hin H0. apply Z.eqb_eq in H0. rewrite map_map. apply Forall_forall. intros f I. apply in_map_iff in I.
    destruct I as (ci & <- & I). rewrite range0, in_upto in I. unfold significance_step.
    rewrite <- (read_any B F s (visited s) x k ci) by (try apply Hin; try assumption; lia). rewrite H0. unfold near. rewrite Z.land_0_l.
    cbn [negb Z.eqb]. rewrite andb_false_r. reflexivity.
  Qed.

  Lemma causal_ci : forall ci, ci = 0 -> (ci =? 0) && styled sty CBLKSTY_VSC = causal B.
  Proof. intros ci ->. rewrite Hv. reflexivity. Qed.

  Theorem sigpass_sim : forall raw, esim B (enc_sigpass raw (width B) (height B) (band B) p sty data) (significance_pass raw B p).
  Proof.
    intros raw. unfold enc_sigpass, significance_pass. cbv zeta. apply esim_columns; intros; cbn [fst snd].
    - rewrite rows_full by lia. apply guard_esim.
      + rewrite map_map. apply esim_steps, forall2_map. intros ci I. rewrite range0, in_upto in I.
        apply sig_step; [lia | apply inside_true; [lia | apply height_full; lia] | apply Hd; lia | apply causal_ci].
      + intros F s O C. apply (sig_idle raw x k 4 F); try assumption; [lia |]. intros ci Hc. apply inside_true; [lia | apply height_full; lia].
    - rewrite rows_last by reflexivity. pose proof (Z.mod_pos_bound (height B) 4 ltac:(lia)). apply guard_esim.
      + rewrite map_map. apply esim_steps, forall2_map. intros ci I. rewrite range0, in_upto in I.
        apply sig_step; [lia | apply inside_true; [lia | apply height_last; lia] | apply Hd; lia | apply causal_ci].
      + intros F s O C. apply (sig_idle raw x (height B / 4) (height B mod 4) F); try assumption; [lia |]. intros ci Hc. apply inside_true; [lia | apply height_last; lia].
  Qed.

  (** The refinement pass. *)
  Lemma ref_idle : forall x k lim F s, Ok B F s (visited s) -> 0 <= lim <= 4 -> (forall ci, 0 <= ci < lim -> inside B x (4 * k + ci) = true) ->
    (Z.land (F (flag_at (width B) x k)) T1_SIGMA_COLUMN =? 0) = true \/
      (Z.land (F (flag_at (width B) x k)) T1_PI_ALL =? T1_PI_ALL) = true ->
    Forall (fun f : step => f s = (s, [])) (map (refinement_step B p x) (map (fun ci => 4 * k + ci) (range 0 lim))).
  Proof.
    intros x k lim F s [R S] Hl Hin H0. rewrite sigma_column_bits, pi_all_bits in H0. cbn [existsb forallb] in H0.
    rewrite orb_false_r, negb_true_iff, !orb_false_iff, andb_true_r, !andb_true_iff in H0.
    rewrite map_map. apply Forall_forall. intros f I. apply in_map_iff in I.
    destruct I as (ci & <- & I). rewrite range0, in_upto in I. unfold refinement_step.
    assert (Hc : 0 <= ci < 4) by lia. pose proof (Hin ci I) as Hi.
    rewrite <- (read_this B F s (visited s) x k ci R Hc Hi), <- (read_pi B F s (visited s) x k ci R Hc Hi).
    assert (C : Z.testbit (F (flag_at (width B) x k)) (4 + 3 * ci) && negb (Z.testbit (F (flag_at (width B) x k)) (21 + 3 * ci)) = false).
    { clear - H0 Hc. destruct H0 as [(A0 & A1 & A2 & A3) | (A0 & A1 & A2 & A3)];
      destruct (row4 ci Hc) as [-> | [-> | [-> | ->]]];
      [change (4 + 3 * 0) with 4 | change (4 + 3 * 1) with 7 | change (4 + 3 * 2) with 10 | change (4 + 3 * 3) with 13
      | change (21 + 3 * 0) with 21 | change (21 + 3 * 1) with 24 | change (21 + 3 * 2) with 27 | change (21 + 3 * 3) with 30];
      rewrite ?A0, ?A1, ?A2, ?A3; rewrite ?andb_false_r; reflexivity. }
    rewrite C. reflexivity.
  Qed.

  Theorem refpass_sim : esim B (enc_refpass (width B) (height B) p data) (refinement_pass B p).
  Proof.
    unfold enc_refpass, refinement_pass. cbv zeta. apply esim_columns; intros; cbn [fst snd].
    - rewrite rows_full by lia. apply guard_esim; [apply guard_esim |].
      + rewrite map_map. apply esim_steps, forall2_map. intros ci I. rewrite range0, in_upto in I.
        apply ref_step; [lia | apply inside_true; [lia | apply height_full; lia] | apply Hd; lia].
      + intros F s O C. apply (ref_idle x k 4 F); auto; [lia |]. intros ci Hc. apply inside_true; [lia | apply height_full; lia].
      + intros F s O C. apply (ref_idle x k 4 F); auto; [lia |]. intros ci Hc. apply inside_true; [lia | apply height_full; lia].
    - rewrite rows_last by reflexivity. pose proof (Z.mod_pos_bound (height B) 4 ltac:(lia)). apply guard_esim.
      + rewrite map_map. apply esim_steps, forall2_map. intros ci I. rewrite range0, in_upto in I.
        apply ref_step; [lia | apply inside_true; [lia | apply height_last; lia] | apply Hd; lia].
      + intros F s O C. apply (ref_idle x (height B / 4) (height B mod 4) F); auto; [lia |]. intros ci Hc. apply inside_true; [lia | apply height_last; lia].
  Qed.
  (** The clean-up pass. *)
  Lemma unmark_row : forall (V : Z -> Z -> bool) x k ci, 0 <= ci -> unmark V x k (upto ci) x (4 * k + ci) = V x (4 * k + ci).
  Proof.
    intros V x k ci Hc. unfold unmark. rewrite Z.eqb_refl.
    replace (existsb (fun r => 4 * k + ci =? 4 * k + r) (upto ci)) with false; [reflexivity |]. symmetry.
    destruct (existsb (fun r => 4 * k + ci =? 4 * k + r) (upto ci)) eqn:E; [| reflexivity]. apply existsb_exists in E.
    destruct E as (r & I & E). apply in_upto in I. apply Z.eqb_eq in E. lia.
  Qed.

  Lemma unmark_next : forall (V : Z -> Z -> bool) x k ci x' y', 0 <= ci -> unmark (unmark V x k (upto ci)) x k [ci] x' y' = unmark V x k (upto (ci + 1)) x' y'.
  Proof.
    intros V x k ci x' y' Hc. unfold unmark. rewrite upto_S, existsb_app by exact Hc. cbn [existsb].
    destruct (x' =? x), (existsb (fun r => y' =? 4 * k + r) (upto ci)), (y' =? 4 * k + ci); reflexivity.
  Qed.

  Lemma ok_unmark1 : forall F s V x k ci, Ok B F s (unmark V x k (upto ci)) -> 0 <= ci < 4 -> inside B x (4 * k + ci) = true ->
    Ok B (and_at F (flag_at (width B) x k) (not32 (shl T1_PI_THIS (3 * ci)))) s (unmark V x k (upto (ci + 1))).
  Proof.
    intros F s V x k ci [R S] Hc Hin. split; [| exact S].
    apply (rel_ext B _ s (unmark (unmark V x k (upto ci)) x k [ci])).
    - apply rel_unmark; try assumption; [apply inside_bounds in Hin; lia | eapply inside_stripe; eassumption | repeat constructor; lia |].
      intros b Hb. rewrite not32_bit by exact Hb. unfold T1_PI_THIS. rewrite testbit_shl by lia. cbn [existsb]. rewrite orb_false_r.
      rewrite Z.eqb_sym. reflexivity.
    - intros x' y' _. rewrite unmark_next by lia. auto.
  Qed.

  Lemma cleanup_visited : forall x y s, visited (fst (cleanup_step B p x y s)) = visited s.
  Proof. intros. unfold cleanup_step. destruct (_ && _); [apply code_zero_visited | reflexivity]. Qed.
  Lemma cleanups_visited : forall x l s, visited (fst (steps (map (cleanup_step B p x) l) s)) = visited s.
  Proof.
    intros x l. induction l as [| y l IH]; intros s; cbn [map steps]; [reflexivity |].
    pose proof (cleanup_visited x y s) as E. destruct (cleanup_step B p x y s) as [s1 o1]. specialize (IH s1).
    destruct (steps (map (cleanup_step B p x) l) s1) as [s2 o2]. cbn [fst] in *. congruence.
  Qed.

  Lemma vsc_row : forall ci, ci = 0 -> styled sty CBLKSTY_VSC && (ci =? 0) = causal B.
  Proof. intros ci ->. rewrite Hv, andb_true_r. reflexivity. Qed.

  Lemma cln_row : forall V F s x k ci q, Ok B F s (unmark V x k (upto ci)) -> V = visited s -> 0 <= ci < 4 ->
    inside B x (4 * k + ci) = true -> stored B data q x (4 * k + ci) ->
    let r := enc_cln_row (width B) (band B) (enc_one p) (flag_at (width B) x k) data q ci false (styled sty CBLKSTY_VSC) F in
    let t := cleanup_step B p x (4 * k + ci) s in
    snd r = snd t /\ Ok B (fst r) (fst t) (unmark V x k (upto (ci + 1))).
  Proof.
    intros V F s x k ci q O EV Hc Hin [Hb Hs]. cbv zeta. unfold enc_cln_row, cleanup_step.
    pose proof (proj1 O) as R.
    rewrite (read_quiet B F s (unmark V x k (upto ci)) x k ci) by assumption. rewrite unmark_row by lia. subst V.
    destruct (negb (significant s x (4 * k + ci)) && negb (visited s x (4 * k + ci))) eqn:Q.
    2:{ cbn [fst snd]. split; [reflexivity |]. apply ok_unmark1; assumption. }
    rewrite (read_zc B F s (unmark (visited s) x k (upto ci)) x k ci) by assumption. rewrite Hb, Hs by exact Hp.
    pose proof (ok_code_zero false B p F s _ x k ci _ G O Hc Hin (vsc_row ci)) as O1.
    pose proof (code_zero_out false B p s x (4 * k + ci)) as Eo.
    destruct (code_zero false B p x (4 * k + ci) s) as [s1 o1]. cbn [fst snd] in *. subst o1.
    pose proof (read_sc B F s _ x k ci R Hc Hin) as Rs. cbv zeta in Rs. unfold after_zero in O1. unfold sign_symbol. rewrite <- Rs. cbn [fst snd].
    destruct (bit_cases B p x (4 * k + ci)) as [E | E]; rewrite E in *; cbn [Z.eqb Pos.eqb negb fst snd app] in *.
    - split; [reflexivity |]. apply ok_unmark1; assumption.
    - split; [reflexivity |]. apply ok_unmark1; assumption.
  Qed.

  Lemma cln_rows : forall x k q f lim n j F s, Z.to_nat (lim - j) = n -> 0 <= j -> lim <= 4 ->
    (forall ci, j <= ci < lim -> inside B x (4 * k + ci) = true /\ stored B data (q ci) x (4 * k + ci) /\
       f ci = enc_cln_row (width B) (band B) (enc_one p) (flag_at (width B) x k) data (q ci) ci false (styled sty CBLKSTY_VSC)) ->
    Ok B F s (unmark (visited s) x k (upto j)) ->
    let r := esteps (map f (range j lim)) F in
    let t := steps (map (cleanup_step B p x) (map (fun ci => 4 * k + ci) (range j lim))) s in
    snd r = snd t /\ Ok B (fst r) (fst t) (unmark (visited s) x k (upto (Z.max j lim))).
  Proof.
    intros x k q f lim n. induction n as [| n IH]; intros j F s En Hj Hl H O; cbv zeta.
    - rewrite range_nil by lia. cbn [map esteps steps fst snd]. replace (Z.max j lim) with j by lia. auto.
    - rewrite range_cons by lia. cbn [map esteps steps]. destruct (H j ltac:(lia)) as (Hi & Hst & ->).
      pose proof (cln_row (visited s) F s x k j (q j) O eq_refl ltac:(lia) Hi Hst) as A. cbv zeta in A.
      pose proof (cleanup_visited x (4 * k + j) s) as Ev.
      destruct (enc_cln_row _ _ _ _ _ _ _ _ _ F) as [F1 o1]. destruct (cleanup_step B p x (4 * k + j) s) as [s1 o1']. cbn [fst snd] in *.
      destruct A as [E1 O1].
      assert (O1' : Ok B F1 s1 (unmark (visited s1) x k (upto (j + 1)))) by (rewrite Ev; exact O1).
      pose proof (IH (j + 1) F1 s1 ltac:(lia) ltac:(lia) Hl ltac:(intros; apply H; lia) O1') as C. cbv zeta in C. rewrite Ev in C.
      destruct (esteps _ F1) as [F2 o2]. destruct (steps _ s1) as [s2 o2']. cbn [fst snd] in *. destruct C as [E2 O2].
      subst. split; [reflexivity |]. replace (Z.max j lim) with (Z.max (j + 1) lim) by lia. exact O2.
  Qed.

  Lemma unvisit : forall x k l s, 
    let s' := fold_left (fun s y => set_visited false s x y) (map (fun ci => 4 * k + ci) l) s in
    significant s' = significant s /\ refined s' = refined s /\ level s' = level s /\
    (forall x' y', visited s' x' y' = unmark (visited s) x k l x' y').
  Proof.
    intros x k l. induction l as [| a l IH]; intros s; cbn [map fold_left]; cbv zeta.
    - repeat split. intros. unfold unmark. cbn [existsb]. rewrite andb_false_r. reflexivity.
    - specialize (IH (set_visited false s x (4 * k + a))). cbv zeta in IH. destruct IH as (E1 & E2 & E3 & E4).
      rewrite E1, E2, E3. repeat split. intros x' y'. rewrite E4. unfold unmark. cbn [set_visited visited existsb]. unfold set.
      destruct (x' =? x), (y' =? 4 * k + a), (existsb (fun r => y' =? 4 * k + r) l); reflexivity.
  Qed.

  Lemma ok_unvisit : forall F s V x k l, Ok B F s (unmark V x k l) -> V = visited s ->
    let s' := fold_left (fun s y => set_visited false s x y) (map (fun ci => 4 * k + ci) l) s in Ok B F s' (visited s').
  Proof.
    intros F s V x k l O ->. cbv zeta. pose proof (unvisit x k l s) as U. cbv zeta in U. destruct U as (E1 & E2 & _ & E4).
    eapply ok_ext; [exact O | exact E1 | exact E2 |]. intros. apply E4.
  Qed.

  Lemma upto4 : upto 4 = [0; 1; 2; 3]. Proof. reflexivity. Qed.

  Lemma ok_unmark0 : forall F s V x k, Ok B F s V -> Ok B F s (unmark V x k (upto 0)).
  Proof. intros F s V x k O. eapply ok_ext; [exact O | reflexivity | reflexivity |]. intros. unfold unmark. cbn [upto seq Z.to_nat map existsb]. rewrite andb_false_r. reflexivity. Qed.

  (** No run: every row in turn. *)
  Lemma cln_plain : forall x k q lim F s, Ok B F s (visited s) -> 0 <= lim <= 4 -> 0 <= k < stripes B -> 0 <= x < width B ->
    (lim < 4 -> height B = 4 * k + lim) ->
    (forall ci, 0 <= ci < lim -> inside B x (4 * k + ci) = true /\ stored B data (q ci) x (4 * k + ci)) ->
    let r := enc_cln_step (width B) (band B) (enc_one p) (flag_at (width B) x k) data q false 0 lim (styled sty CBLKSTY_VSC) F in
    let t := steps (map (cleanup_step B p x) (map (fun ci => 4 * k + ci) (range 0 lim))) s in
    snd r = snd t /\ Ok B (fst r) (fst t) (unmark (visited s) x k (range 0 lim)).
  Proof.
    intros x k q lim F s O Hl Hk Hx Hh H. cbv zeta. unfold enc_cln_step. cbv zeta. rewrite check_bits.
    destruct (forallb _ _) eqn:C.
    - cbn [forallb] in C. rewrite andb_true_r, !andb_true_iff in C.
      destruct O as [R S]. assert (Hlim : lim = 4).
      { destruct (Z.eq_dec lim 4); [assumption | exfalso]. specialize (Hh ltac:(lia)). destruct C as (C0 & C1 & C2 & C3 & _).
        fold (word B F x k) in C3. rewrite (rel_bit _ _ _ _ R) in C3 by (try apply guard_false; lia).
        unfold ebit, near_bit, inside in C3. cbn [Z.ltb Z.compare Pos.compare Pos.compare_cont] in C3. change (13 / 3 - 1) with 3 in C3.
        replace (4 * k + 3 <? height B) with false in C3 by (symmetry; apply Z.ltb_ge; lia). rewrite andb_false_r in C3. discriminate. }
      subst lim. rewrite steps_idle.
      + cbn [fst snd]. split; [reflexivity |]. change (pi_from 0) with T1_PI_ALL. split; [| exact S]. rewrite range0, upto4. apply rel_unmark; try assumption.
        * repeat constructor; lia.
        * intros b Hb. rewrite not32_bit by exact Hb. f_equal. change T1_PI_ALL with (mk [21; 24; 27; 30]). rewrite testbit_mk by pos_list.
          cbn [existsb]. change (21 + 3 * 0) with 21. change (21 + 3 * 1) with 24. change (21 + 3 * 2) with 27. change (21 + 3 * 3) with 30.
          rewrite (Z.eqb_sym b 21), (Z.eqb_sym b 24), (Z.eqb_sym b 27), (Z.eqb_sym b 30). reflexivity.
      + rewrite map_map. apply Forall_forall. intros f I. apply in_map_iff in I. destruct I as (ci & <- & I). rewrite range0, in_upto in I.
        unfold cleanup_step. destruct (H ci I) as [Hi _]. rewrite <- (read_this B F s _ x k ci R I Hi).
        replace (Z.testbit (F (flag_at (width B) x k)) (4 + 3 * ci)) with true; [reflexivity |].
        destruct C as (C0 & C1 & C2 & C3 & _). destruct (row4 ci I) as [-> | [-> | [-> | ->]]]; symmetry; assumption.
    - pose proof (cln_rows x k q (fun ci => enc_cln_row (width B) (band B) (enc_one p) (flag_at (width B) x k) data (q ci) ci (false && (ci =? 0)) (styled sty CBLKSTY_VSC))
        lim (Z.to_nat (lim - 0)) 0 F s eq_refl ltac:(lia) ltac:(lia)) as A.
      assert (P : forall ci, 0 <= ci < lim -> inside B x (4 * k + ci) = true /\ stored B data (q ci) x (4 * k + ci) /\
        enc_cln_row (width B) (band B) (enc_one p) (flag_at (width B) x k) data (q ci) ci (false && (ci =? 0)) (styled sty CBLKSTY_VSC) =
        enc_cln_row (width B) (band B) (enc_one p) (flag_at (width B) x k) data (q ci) ci false (styled sty CBLKSTY_VSC)).
      { intros ci Hc. destruct (H ci Hc). repeat split; auto; apply H1. }
      specialize (A P (ok_unmark0 _ _ _ _ _ O)). cbv zeta in A. replace (Z.max 0 lim) with lim in A by lia. rewrite range0 in *. exact A.
  Qed.

  (** A run of zeros. *)
  Lemma run_zeros : forall x k q n ci, (n = Z.to_nat (4 - ci)) -> 0 <= ci <= 4 ->
    (forall j, ci <= j < 4 -> stored B data (q j) x (4 * k + j)) ->
    run_length (enc_one p) data q ci n = ci + Z.of_nat (leading_zeros B p x (map (fun ci => 4 * k + ci) (range ci 4))).
  Proof.
    intros x k q n. induction n as [| n IH]; intros ci En Hc H; cbn [run_length].
    - rewrite range_nil by lia. cbn [map leading_zeros]. lia.
    - rewrite range_cons by lia. cbn [map leading_zeros]. destruct (H ci ltac:(lia)) as [Hb _]. rewrite Hb by exact Hp.
      destruct (bit_cases B p x (4 * k + ci)) as [-> | ->]; cbn [Z.eqb Pos.eqb]; [| lia].
      rewrite IH by (try lia; intros; apply H; lia). lia.
  Qed.

  Lemma range_split : forall n lo hi, lo + Z.of_nat n <= hi ->
    firstn n (range lo hi) = range lo (lo + Z.of_nat n) /\ skipn n (range lo hi) = range (lo + Z.of_nat n) hi.
  Proof.
    induction n as [| n IH]; intros lo hi H.
    - rewrite Z.add_0_r. rewrite (range_nil lo lo) by lia. split; reflexivity.
    - rewrite (range_cons lo hi) by lia. cbn [firstn skipn]. destruct (IH (lo + 1) hi ltac:(lia)) as [E1 E2]. rewrite E1, E2.
      replace (lo + 1 + Z.of_nat n) with (lo + Z.of_nat (S n)) by lia. rewrite (range_cons lo (lo + Z.of_nat (S n))) by lia. auto.
  Qed.

  Lemma leading_le : forall x l, (leading_zeros B p x l <= length l)%nat.
  Proof. intros x l. induction l as [| y l IH]; cbn [leading_zeros length]; [lia |]. destruct (_ =? 1); lia. Qed.
  Lemma range_length : forall lo hi, length (range lo hi) = Z.to_nat (hi - lo).
  Proof. intros. unfold range. rewrite map_length, seq_length. reflexivity. Qed.

  Lemma levels_same : forall x l s, let s' := fold_left (fun s y => set_level p s x y) l s in
    significant s' = significant s /\ refined s' = refined s /\ visited s' = visited s.
  Proof. intros x l. induction l as [| y l IH]; intros s; cbn [fold_left]; cbv zeta; [auto |]. destruct (IH (set_level p s x y)) as (-> & -> & ->). auto. Qed.

  Lemma sign_context_ext : forall s s' x y, significant s' = significant s -> sign_context B s' x y = sign_context B s x y.
  Proof. intros s s' x y E. unfold sign_context, contribution, seen. rewrite E. reflexivity. Qed.

  Theorem clnpass_sim : esim B (enc_clnpass (width B) (height B) (band B) p sty data) (cleanup_pass B p).
  Proof.
    unfold enc_clnpass, cleanup_pass. cbv zeta. apply esim_columns.
    - intros k x Hk Hx F s O. cbn [fst snd].
      assert (Hin : forall ci, 0 <= ci < 4 -> inside B x (4 * k + ci) = true) by (intros; apply inside_true; [lia | apply height_full; lia]).
      assert (Hst : forall ci, 0 <= ci < 4 -> stored B data (full_data (width B) k x ci) x (4 * k + ci)) by (intros; apply Hd; lia).
      assert (Hks : 0 <= k < stripes B) by (apply (inside_stripe B x k 0); [lia | apply Hin; lia]).
      unfold cleanup_column. rewrite (column_still B F s (visited s) x k G O Hk Hx). rewrite rows_full by lia.
      rewrite map_length, range_length. change (Z.to_nat (4 - 0) =? 4)%nat with true. cbn [andb].
      change (forallb (fun y => negb (significant s x y) && negb (visited s x y) && negb (any_seen B s x y))) with (forallb (still B s x)).
      destruct (forallb (still B s x) (map (fun ci => 4 * k + ci) (range 0 4))) eqn:St.
      + rewrite (run_zeros x k _ 4%nat 0) by (try reflexivity; try lia; exact Hst). rewrite Z.add_0_l.
        set (n := leading_zeros B p x (map (fun ci => 4 * k + ci) (range 0 4))).
        assert (Hn : (n <= 4)%nat) by (unfold n; etransitivity; [apply leading_le |]; rewrite map_length, range_length; reflexivity).
        assert (F0 : F (flag_at (width B) x k) = 0).
        { apply Z.eqb_eq. rewrite (column_still B F s (visited s) x k G O Hk Hx), rows_full by lia. exact St. }
        rewrite forallb_forall in St.
        assert (Vz : forall ci, 0 <= ci < 4 -> visited s x (4 * k + ci) = false).
        { intros ci Hc. assert (I : In (4 * k + ci) (map (fun ci => 4 * k + ci) (range 0 4))).
          { apply (in_map (fun ci => 4 * k + ci)). rewrite range0. apply in_upto. lia. }
          specialize (St _ I). unfold still in St. rewrite !andb_true_iff, !negb_true_iff in St. tauto. }
        assert (Un : forall l, Forall (fun r => 0 <= r < 4) l -> forall x' y', unmark (visited s) x k l x' y' = visited s x' y').
        { intros l Hl x' y'. unfold unmark. destruct (Z.eqb_spec x' x) as [-> |]; [| reflexivity]. cbn [andb].
          destruct (existsb (fun r => y' =? 4 * k + r) l) eqn:E; [| reflexivity]. apply existsb_exists in E. destruct E as (r & I & E).
          apply Z.eqb_eq in E. subst y'. symmetry. apply Vz. exact (proj1 (Forall_forall _ _) Hl r I). }
        assert (Fu : forall m, m <= 4 -> Forall (fun r => 0 <= r < 4) (upto m)).
        { intros m Hm. apply Forall_forall. intros r I. apply in_upto in I. lia. }
        unfold enc_cln_step. cbv zeta. rewrite F0, Z.land_0_l.
        change (0 =? Z.lor T1_SIGMA_COLUMN T1_PI_ALL) with false. cbv iota.
        rewrite !firstn_map, !skipn_map. destruct (range_split n 0 4 ltac:(lia)) as [-> ->]. rewrite !Z.add_0_l.
        set (s0 := fold_left (fun s y => set_level p s x y) (map (fun ci => 4 * k + ci) (range 0 (Z.of_nat n))) s).
        pose proof (levels_same x (map (fun ci => 4 * k + ci) (range 0 (Z.of_nat n))) s) as L0. cbv zeta in L0. fold s0 in L0. destruct L0 as (L1 & L2 & L3).
        destruct (Nat.eq_dec n 4) as [E4 | N4].
        * rewrite E4. rewrite (range_nil (Z.of_nat 4)) by lia. cbn [map esteps fst snd]. split; [reflexivity |].
          apply (ok_unvisit F s0 (visited s0) x k); [| reflexivity].
          eapply ok_ext; [exact O | exact L1 | exact L2 |]. intros x' y' _. rewrite L3. apply Un. rewrite range0. apply Fu. lia.
        * rewrite (range_cons (Z.of_nat n) 4) by lia. cbn [map esteps].
          set (j := Z.of_nat n) in *. assert (Hj : 0 <= j < 4) by lia.
          replace (j =? 4) with false by (symmetry; apply Z.eqb_neq; lia).
          assert (O0 : Ok B F s0 (unmark (visited s0) x k (upto j))).
          { eapply ok_ext; [exact O | exact L1 | exact L2 |]. intros. rewrite L3. apply Un. apply Fu. lia. }
          destruct (Hst j Hj) as [Hb Hs].
          (* the row the run ends at *)
          pose proof (ok_code_sign false B F s0 _ x k j _ G O0 Hj (Hin j Hj) (vsc_row j)) as O1.
          pose proof (code_sign_out false B s0 x (4 * k + j)) as Eo.
          assert (Ev : visited (fst (code_sign false B x (4 * k + j) s0)) = visited s0)
            by (unfold code_sign; destruct (sign_context B s0 x (4 * k + j)); reflexivity).
          destruct (code_sign false B x (4 * k + j) s0) as [s1 o1]. cbn [fst snd] in Eo, O1, Ev. subst o1.
          cbn [andb]. rewrite Z.eqb_refl.
          pose proof (read_sc B F s0 _ x k j (proj1 O0) Hj (Hin j Hj)) as Rs. cbv zeta in Rs.
          assert (Er : enc_cln_row (width B) (band B) (enc_one p) (flag_at (width B) x k) data (full_data (width B) k x j) j true (styled sty CBLKSTY_VSC) F
            = (and_at (update_flags F (flag_at (width B) x k) j (sign_at B x (4 * k + j)) (width B + 2) (styled sty CBLKSTY_VSC && (j =? 0)))
                (flag_at (width B) x k) (not32 (shl T1_PI_THIS (3 * j))), [sign_symbol false B s0 x (4 * k + j)])).
          { unfold enc_cln_row, sign_symbol. cbn [andb app]. rewrite Hs, <- Rs. reflexivity. }
          rewrite Er. clear Er.
          set (F1 := and_at _ _ _). set (s1' := set_level p s1 x (4 * k + j)).
          assert (O2 : Ok B F1 s1' (unmark (visited s1') x k (upto (j + 1)))).
          { unfold s1'. cbn [set_level visited]. apply ok_unmark1; [| exact Hj | apply Hin, Hj].
            rewrite Ev. eapply ok_ext; [exact O1 | reflexivity | reflexivity |]. reflexivity. }
          pose proof (cln_rows x k (full_data (width B) k x)
            (fun ci => enc_cln_row (width B) (band B) (enc_one p) (flag_at (width B) x k) data (full_data (width B) k x ci) ci (ci =? j) (styled sty CBLKSTY_VSC))
            4 (Z.to_nat (4 - (j + 1))) (j + 1) F1 s1' eq_refl ltac:(lia) ltac:(lia)) as A.
          assert (P : forall ci, j + 1 <= ci < 4 -> inside B x (4 * k + ci) = true /\ stored B data (full_data (width B) k x ci) x (4 * k + ci) /\
            enc_cln_row (width B) (band B) (enc_one p) (flag_at (width B) x k) data (full_data (width B) k x ci) ci (ci =? j) (styled sty CBLKSTY_VSC) =
            enc_cln_row (width B) (band B) (enc_one p) (flag_at (width B) x k) data (full_data (width B) k x ci) ci false (styled sty CBLKSTY_VSC)).
          { intros ci Hc. replace (ci =? j) with false by (symmetry; apply Z.eqb_neq; lia). split; [apply Hin; lia | split; [apply Hst; lia | reflexivity]]. }
          specialize (A P O2). cbv zeta in A. replace (Z.max (j + 1) 4) with 4 in A by lia.
          pose proof (cleanups_visited x (map (fun ci => 4 * k + ci) (range (j + 1) 4)) s1') as Ev2.
          destruct (esteps _ F1) as [F2 o2]. destruct (steps _ s1') as [s2 o2']. cbn [fst snd] in A, Ev2. destruct A as [E2 O3].
          cbn [fst snd app]. split.
          -- subst o2'. replace (Z.shiftr j 1) with (j / 2) by (rewrite Z.shiftr_div_pow2 by lia; reflexivity).
             replace (Z.land j 1) with (j mod 2) by (change 1 with (Z.ones 1); rewrite Z.land_ones by lia; reflexivity). reflexivity.
          -- apply (ok_unvisit F2 s2 (visited s1') x k); [rewrite range0; exact O3 | symmetry; exact Ev2].
      + cbn [app]. pose proof (cln_plain x k (full_data (width B) k x) 4 F s O ltac:(lia) Hks Hx ltac:(lia)
          ltac:(intros ci Hc; split; [apply Hin, Hc | apply Hst, Hc])) as A. cbv zeta in A.
        pose proof (cleanups_visited x (map (fun ci => 4 * k + ci) (range 0 4)) s) as Ev.
        destruct (enc_cln_step _ _ _ _ _ _ _ _ _ _ F) as [F2 o2]. destruct (steps _ s) as [s2 o2']. cbn [fst snd app] in *. destruct A as [E2 O3].
        split; [exact E2 |]. apply (ok_unvisit F2 s2 (visited s) x k); [exact O3 | symmetry; exact Ev].
    - intros x Hm Hx F s O. cbn [fst snd].
      pose proof (Z.mod_pos_bound (height B) 4 ltac:(lia)) as Mb. pose proof (Z.div_mod (height B) 4 ltac:(lia)) as Dm.
      assert (Hin : forall ci, 0 <= ci < height B mod 4 -> inside B x (4 * (height B / 4) + ci) = true) by (intros; apply inside_true; [lia | apply height_last; lia]).
      assert (Hks : 0 <= height B / 4 < stripes B) by (apply (inside_stripe B x (height B / 4) 0); [lia | apply Hin; lia]).
      unfold cleanup_column. rewrite rows_last by reflexivity. rewrite map_length, range_length.
      replace (Z.to_nat (height B mod 4 - 0) =? 4)%nat with false by (symmetry; apply Nat.eqb_neq; lia). cbn [andb].
      pose proof (cln_plain x (height B / 4) (last_data (width B) (height B) (height B / 4) x) (height B mod 4) F s O ltac:(lia) Hks Hx ltac:(lia)
          ltac:(intros ci Hc; split; [apply Hin, Hc | apply Hd; lia])) as A. cbv zeta in A.
      pose proof (cleanups_visited x (map (fun ci => 4 * (height B / 4) + ci) (range 0 (height B mod 4))) s) as Ev.
      destruct (enc_cln_step _ _ _ _ _ _ _ _ _ _ F) as [F2 o2]. destruct (steps _ s) as [s2 o2']. cbn [fst snd app] in *. destruct A as [E2 O3].
      split; [exact E2 |]. apply (ok_unvisit F2 s2 (visited s) x (height B / 4)); [exact O3 | symmetry; exact Ev].
  Qed.
End Enc.
