(** Flag words against the coding state of T1Spec. *)

From Coq Require Import ZArith List Bool Lia.
From Verif Require Import Ints Mem MqModel T1Luts T1Model T1Spec T1Bits.
Import ListNotations.
Local Open Scope Z_scope.

(** What bit [b] of the word of column [x] in stripe [k] stands for: significance
    of a position and its eight neighbours for each of four rows, signs, and the
    refined and visited marks. *)
Definition near_bit (B : block) (s : state) (x y r : Z) : bool :=
  inside B x y && significant s x y && negb (causal B && (r =? 4)).
Definition ebit (B : block) (s : state) (V : Z -> Z -> bool) (x k b : Z) : bool :=
  if b <? 18 then near_bit B s (x + (b mod 3 - 1)) (4 * k + (b / 3 - 1)) (b / 3 - 1)
  else if b =? 18 then near_bit B s x (4 * k - 1) (-1) && negative B x (4 * k - 1)
  else if (b - 19) mod 3 =? 0 then near_bit B s x (4 * k + (b - 19) / 3) ((b - 19) / 3) && negative B x (4 * k + (b - 19) / 3)
  else if (b - 19) mod 3 =? 1 then inside B x (4 * k + (b - 20) / 3) && refined s x (4 * k + (b - 20) / 3)
  else inside B x (4 * k + (b - 21) / 3) && V x (4 * k + (b - 21) / 3).
(** Visited marks of rows below the block are not constrained. *)
Definition guard (B : block) (k b : Z) : bool := (21 <=? b) && ((b - 21) mod 3 =? 0) && (height B <=? 4 * k + (b - 21) / 3).

Definition word (B : block) (F : mem) (x k : Z) : Z := F (flag_at (width B) x k).
Definition stripes (B : block) : Z := (height B + 3) / 4.
Record Rel (B : block) (F : mem) (s : state) (V : Z -> Z -> bool) : Prop := mkRel {
  rel_range : forall x k, -1 <= x <= width B -> 0 <= k < stripes B -> 0 <= word B F x k < 2 ^ 32;
  rel_bit : forall x k b, -1 <= x <= width B -> 0 <= k < stripes B -> 0 <= b < 32 -> guard B k b = false ->
    Z.testbit (word B F x k) b = ebit B s V x k b }.

Definition good (B : block) : Prop := 1 <= width B /\ 1 <= height B /\ 0 <= band B < 4.

Lemma flag_eq : forall w x k x' k' d e, 1 <= w -> 0 <= x < w -> -1 <= x' <= w -> -1 <= d <= 1 ->
  (flag_at w x' k' =? flag_at w x k + d + e * (w + 2)) = (x' - x =? d) && (k' - k =? e).
Proof.
  intros w x k x' k' d e Hw Hx Hx' Hd. unfold flag_at.
  destruct (Z.eqb_spec (x' - x) d) as [E1 | E1]; destruct (Z.eqb_spec (k' - k) e) as [E2 | E2]; cbn [andb].
  - apply Z.eqb_eq. replace k' with (k + e) by lia. replace x' with (x + d) by lia. ring.
  - apply Z.eqb_neq. intros C. apply E2.
    assert (M : (k' - k - e) * (w + 2) = 0) by lia. apply Z.mul_eq_0 in M. lia.
  - apply Z.eqb_neq. intros C. replace k' with (k + e) in C by lia. lia.
  - apply Z.eqb_neq. intros C. apply E2.
    assert (M : (k' - k - e) * (w + 2) = x + d - x') by lia.
    destruct (Z.eq_dec (k' - k - e) 0); [lia |]. exfalso.
    assert (k' - k - e >= 1 \/ k' - k - e <= -1) as [G | G] by lia; nia.
Qed.

Lemma or_at_get : forall F p v q, or_at F p v q = Z.lor (F q) (if q =? p then v else 0).
Proof.
  intros. unfold or_at, upd. destruct (Z.eqb_spec q p) as [-> | H]; [reflexivity | symmetry; apply Z.lor_0_r].
Qed.

Lemma lor_range : forall u v, 0 <= u < 2 ^ 32 -> 0 <= v < 2 ^ 32 -> 0 <= Z.lor u v < 2 ^ 32.
Proof.
  intros u v Hu Hv. assert (0 <= Z.lor u v) by (apply Z.lor_nonneg; lia). split; [assumption |].
  apply word_range; [assumption |]. intros b Hb. rewrite Z.lor_spec, !word_high by assumption. reflexivity.
Qed.

Lemma land_range : forall u v, 0 <= u < 2 ^ 32 -> 0 <= Z.land u v < 2 ^ 32.
Proof.
  intros u v Hu. assert (0 <= Z.land u v) by (apply Z.land_nonneg; lia). split; [assumption |].
  apply word_range; [assumption |]. intros b Hb. rewrite Z.land_spec, word_high by assumption. reflexivity.
Qed.

(** ** A coefficient becoming significant *)

Definition delta (dx dk ci s : Z) (vsc : bool) : Z :=
  if dk =? 0 then
    (if dx =? -1 then shl (bit 5) (3 * ci) else if dx =? 0 then shl (Z.lor (shl s 19) (bit 4)) (3 * ci)
     else if dx =? 1 then shl (bit 3) (3 * ci) else 0)
  else if (dk =? -1) && ((ci =? 0) && negb vsc) then
    (if dx =? -1 then bit 17 else if dx =? 0 then Z.lor (shl s 31) (bit 16) else if dx =? 1 then bit 15 else 0)
  else if (dk =? 1) && (ci =? 3) then
    (if dx =? -1 then bit 2 else if dx =? 0 then Z.lor (shl s 18) (bit 1) else if dx =? 1 then bit 0 else 0)
  else 0.

Lemma update_word : forall w F x k x' k' ci s vsc, 1 <= w -> 0 <= x < w -> -1 <= x' <= w ->
  update_flags F (flag_at w x k) ci s (w + 2) vsc (flag_at w x' k')
  = Z.lor (F (flag_at w x' k')) (delta (x' - x) (k' - k) ci s vsc).
Proof.
  intros w F x k x' k' ci s vsc Hw Hx Hx'.
  pose proof (fun d e H => flag_eq w x k x' k' d e Hw Hx Hx' H) as Q.
  assert (Q1 : forall d e q, -1 <= d <= 1 -> q = flag_at w x k + d + e * (w + 2) ->
             (flag_at w x' k' =? q) = (x' - x =? d) && (k' - k =? e)) by (intros d e q Hd ->; apply Q; exact Hd).
  unfold update_flags, T1_CHI_0_I, T1_CHI_1_I, T1_CHI_5_I, delta. cbv zeta. set (p := flag_at w x k) in *. set (q := flag_at w x' k') in *.
  destruct ((ci =? 0) && negb vsc) eqn:E0; destruct (ci =? 3) eqn:E3;
    try (apply andb_true_iff in E0; destruct E0 as [E0 _]; apply Z.eqb_eq in E0; apply Z.eqb_eq in E3; lia);
    rewrite !or_at_get;
    rewrite ?(Q1 (-1) 0 (p - 1)), ?(Q1 0 0 p), ?(Q1 1 0 (p + 1)), ?(Q1 0 (-1) (p - (w + 2))), ?(Q1 (-1) (-1) (p - (w + 2) - 1)),
      ?(Q1 1 (-1) (p - (w + 2) + 1)), ?(Q1 0 1 (p + (w + 2))), ?(Q1 (-1) 1 (p + (w + 2) - 1)), ?(Q1 1 1 (p + (w + 2) + 1)) by lia;
    rewrite ?andb_true_r, ?andb_false_r;
    destruct (Z.eqb_spec (k' - k) 0) as [K0 | K0]; [| destruct (Z.eqb_spec (k' - k) (-1)) as [K1 | K1]; [| destruct (Z.eqb_spec (k' - k) 1) as [K2 | K2]]
      | | destruct (Z.eqb_spec (k' - k) (-1)) as [K1 | K1]; [| destruct (Z.eqb_spec (k' - k) 1) as [K2 | K2]]
      | | destruct (Z.eqb_spec (k' - k) (-1)) as [K1 | K1]; [| destruct (Z.eqb_spec (k' - k) 1) as [K2 | K2]]];
    try (replace (k' - k =? -1) with false by (symmetry; apply Z.eqb_neq; lia));
    try (replace (k' - k =? 1) with false by (symmetry; apply Z.eqb_neq; lia));
    rewrite ?andb_true_r, ?andb_false_r;
    (destruct (Z.eqb_spec (x' - x) (-1)) as [X1 | X1]; [| destruct (Z.eqb_spec (x' - x) 0) as [X2 | X2]; [| destruct (Z.eqb_spec (x' - x) 1) as [X3 | X3]]]);
    try (replace (x' - x =? 0) with false by (symmetry; apply Z.eqb_neq; lia));
    try (replace (x' - x =? 1) with false by (symmetry; apply Z.eqb_neq; lia));
    cbn [andb]; rewrite ?Z.lor_0_r; reflexivity.
Qed.

Definition foot (dx dk ci : Z) (s vsc : bool) (b : Z) : bool :=
  if b <? 18 then (dx + (b mod 3 - 1) =? 0) && (4 * dk + (b / 3 - 1) =? ci) && negb (vsc && (b / 3 - 1 =? 4))
  else if b =? 18 then (dx =? 0) && (4 * dk - 1 =? ci) && s
  else if (b - 19) mod 3 =? 0 then (dx =? 0) && (4 * dk + (b - 19) / 3 =? ci) && negb (vsc && ((b - 19) / 3 =? 4)) && s
  else false.

Definition all_bits : list Z := map Z.of_nat (seq 0 32).
Lemma in_all_bits : forall b, 0 <= b < 32 -> In b all_bits.
Proof. intros b H. unfold all_bits. apply in_map_iff. exists (Z.to_nat b). split; [lia |]. apply in_seq. lia. Qed.

Definition delta_check : bool :=
  forallb (fun dx => forallb (fun dk => forallb (fun ci => forallb (fun s : bool => forallb (fun vsc => forallb (fun b =>
    Bool.eqb (Z.testbit (delta dx dk ci (if s then 1 else 0) vsc) b) (foot dx dk ci s vsc b)) all_bits) [true; false]) [true; false])
    [0; 1; 2; 3]) [-1; 0; 1]) [-1; 0; 1].

Lemma delta_foot : forall dx dk ci (s : bool) vsc b, 0 <= ci < 4 -> 0 <= b < 32 ->
  Z.testbit (delta dx dk ci (if s then 1 else 0) vsc) b = foot dx dk ci s vsc b.
Proof.
  assert (C : delta_check = true) by (vm_compute; reflexivity).
  intros dx dk ci s vsc b Hc Hb.
  assert (Dx : (-1 <= dx <= 1) \/ (dx < -1 \/ 1 < dx)) by lia.
  assert (Dk : (-1 <= dk <= 1) \/ (dk < -1 \/ 1 < dk)) by lia.
  destruct Dx as [Dx | Dx]; [destruct Dk as [Dk | Dk] |].
  - unfold delta_check in C.
    rewrite forallb_forall in C. specialize (C dx ltac:(cbn [In]; lia)).
    rewrite forallb_forall in C. specialize (C dk ltac:(cbn [In]; lia)).
    rewrite forallb_forall in C. specialize (C ci ltac:(cbn [In]; lia)).
    rewrite forallb_forall in C. specialize (C s ltac:(destruct s; cbn [In]; auto)).
    rewrite forallb_forall in C. specialize (C vsc ltac:(destruct vsc; cbn [In]; auto)).
    rewrite forallb_forall in C. specialize (C b (in_all_bits b Hb)). apply eqb_prop in C. exact C.
  - assert (E : delta dx dk ci (if s then 1 else 0) vsc = 0).
    { unfold delta. replace (dk =? 0) with false by (symmetry; apply Z.eqb_neq; lia).
      replace (dk =? -1) with false by (symmetry; apply Z.eqb_neq; lia). replace (dk =? 1) with false by (symmetry; apply Z.eqb_neq; lia).
      reflexivity. }
    rewrite E, Z.bits_0. unfold foot.
    assert (0 <= b / 3) by (apply Z.div_pos; lia).
    destruct (Z.ltb_spec b 18).
    + assert (b / 3 < 6) by (apply Z.div_lt_upper_bound; lia).
      replace (4 * dk + (b / 3 - 1) =? ci) with false by (symmetry; apply Z.eqb_neq; lia).
      rewrite andb_false_r. reflexivity.
    + destruct (Z.eqb_spec b 18).
      * replace (4 * dk - 1 =? ci) with false by (symmetry; apply Z.eqb_neq; lia). rewrite andb_false_r. reflexivity.
      * destruct ((b - 19) mod 3 =? 0); [| reflexivity].
        assert (0 <= (b - 19) / 3 < 5) by (split; [apply Z.div_pos | apply Z.div_lt_upper_bound]; lia).
        replace (4 * dk + (b - 19) / 3 =? ci) with false by (symmetry; apply Z.eqb_neq; lia). rewrite andb_false_r. reflexivity.
  - assert (E : delta dx dk ci (if s then 1 else 0) vsc = 0).
    { unfold delta. replace (dx =? 0) with false by (symmetry; apply Z.eqb_neq; lia).
      replace (dx =? -1) with false by (symmetry; apply Z.eqb_neq; lia). replace (dx =? 1) with false by (symmetry; apply Z.eqb_neq; lia).
      destruct (dk =? 0), ((dk =? -1) && ((ci =? 0) && negb vsc)), ((dk =? 1) && (ci =? 3)); reflexivity. }
    rewrite E, Z.bits_0. unfold foot. pose proof (Z.mod_pos_bound b 3).
    replace (dx + (b mod 3 - 1) =? 0) with false by (symmetry; apply Z.eqb_neq; lia).
    replace (dx =? 0) with false by (symmetry; apply Z.eqb_neq; lia).
    destruct (b <? 18), (b =? 18), ((b - 19) mod 3 =? 0); reflexivity.
Qed.

Lemma delta_range : forall dx dk ci (s : bool) vsc, 0 <= ci < 4 -> 0 <= delta dx dk ci (if s then 1 else 0) vsc < 2 ^ 32.
Proof.
  intros dx dk ci s vsc Hc. unfold delta.
  repeat match goal with |- context [if ?c then _ else _] => match c with s => fail 1 | _ => destruct c end end;
  destruct s; destruct (row4 ci Hc) as [-> | [-> | [-> | ->]]]; vm_compute; split; congruence.
Qed.

Lemma near_set : forall B s x y x' y' r, inside B x y = true ->
  near_bit B (set_significant s x y) x' y' r = near_bit B s x' y' r || ((x' =? x) && (y' =? y) && negb (causal B && (r =? 4))).
Proof.
  intros B s x y x' y' r H. unfold near_bit, set_significant, set. cbn [significant].
  destruct (Z.eqb_spec x' x) as [-> |]; [destruct (Z.eqb_spec y' y) as [-> |] |]; cbn [andb]; rewrite ?orb_false_r; try reflexivity.
  rewrite H. destruct (significant s x y), (causal B), (r =? 4); reflexivity.
Qed.

Lemma ebit_set : forall B s V x k ci x' k' b, inside B x (4 * k + ci) = true -> 0 <= ci < 4 -> 0 <= b < 32 ->
  ebit B (set_significant s x (4 * k + ci)) V x' k' b
  = ebit B s V x' k' b || foot (x' - x) (k' - k) ci (negative B x (4 * k + ci)) (causal B) b.
Proof.
  intros B s V x k ci x' k' b Hin Hc Hb. unfold ebit, foot.
  assert (EX : forall d, (x' + d =? x) = (x' - x + d =? 0))
    by (intros d; destruct (Z.eqb_spec (x' + d) x), (Z.eqb_spec (x' - x + d) 0); lia).
  assert (EY : forall r, (4 * k' + r =? 4 * k + ci) = (4 * (k' - k) + r =? ci))
    by (intros r; destruct (Z.eqb_spec (4 * k' + r) (4 * k + ci)), (Z.eqb_spec (4 * (k' - k) + r) ci); lia).
  assert (EX0 : (x' =? x) = (x' - x =? 0)) by (destruct (Z.eqb_spec x' x), (Z.eqb_spec (x' - x) 0); lia).
  destruct (b <? 18); [rewrite near_set by exact Hin; rewrite EX, EY; reflexivity |].
  destruct (b =? 18).
  - rewrite near_set by exact Hin. replace (4 * k' - 1 =? 4 * k + ci) with (4 * (k' - k) - 1 =? ci)
      by (destruct (Z.eqb_spec (4 * (k' - k) - 1) ci), (Z.eqb_spec (4 * k' - 1) (4 * k + ci)); lia).
    rewrite EX0. rewrite andb_orb_distrib_l. f_equal.
    replace (-1 =? 4) with false by reflexivity. rewrite (andb_false_r (causal B)). cbn [negb]. rewrite andb_true_r.
    destruct (Z.eqb_spec (x' - x) 0) as [E1 | E1]; [| reflexivity]. destruct (Z.eqb_spec (4 * (k' - k) - 1) ci) as [E2 | E2]; [| reflexivity].
    cbn [andb]. f_equal; lia.
  - destruct ((b - 19) mod 3 =? 0).
    + rewrite near_set by exact Hin. rewrite EX0, EY, andb_orb_distrib_l. f_equal.
      destruct (Z.eqb_spec (x' - x) 0) as [E1 | E1]; [| reflexivity].
      destruct (Z.eqb_spec (4 * (k' - k) + (b - 19) / 3) ci) as [E2 | E2]; [| reflexivity].
      cbn [andb]. f_equal. f_equal; lia.
    + rewrite orb_false_r. reflexivity.
Qed.

Lemma rel_significant : forall B F s V x k ci vsc, good B -> Rel B F s V -> 0 <= ci < 4 -> inside B x (4 * k + ci) = true ->
  (ci = 0 -> vsc = causal B) ->
  Rel B (update_flags F (flag_at (width B) x k) ci (sign_at B x (4 * k + ci)) (width B + 2) vsc) (set_significant s x (4 * k + ci)) V.
Proof.
  intros B F s V x k ci vsc (Hw & Hh & Ho) R Hc Hin Hv. unfold sign_at.
  assert (Hx : 0 <= x < width B) by (unfold inside in Hin; rewrite !andb_true_iff, !Z.leb_le, !Z.ltb_lt in Hin; lia).
  assert (Ev : forall dx dk t, delta dx dk ci t vsc = delta dx dk ci t (causal B)).
  { intros dx dk t. unfold delta. destruct (Z.eqb_spec ci 0) as [E |]; [rewrite (Hv E) |]; reflexivity. }
  constructor.
  - intros x' k' Hx' Hk'. unfold word. rewrite update_word by assumption. apply lor_range.
    + apply (rel_range _ _ _ _ R); assumption.
    + apply delta_range. exact Hc.
  - intros x' k' b Hx' Hk' Hb Hg. unfold word. rewrite update_word, Z.lor_spec by assumption.
    rewrite Ev, delta_foot by assumption. fold (word B F x' k').
    rewrite (rel_bit _ _ _ _ R) by assumption. symmetry. apply ebit_set; assumption.
Qed.

(** ** Marks *)

Lemma rel_word : forall B F s V s' V' x k v, good B -> Rel B F s V -> 0 <= x < width B -> 0 <= k < stripes B -> 0 <= v < 2 ^ 32 ->
  (forall b, 0 <= b < 32 -> guard B k b = false -> Z.testbit v b = ebit B s' V' x k b) ->
  (forall x' k' b, x' <> x \/ k' <> k -> 0 <= b < 32 -> ebit B s' V' x' k' b = ebit B s V x' k' b) ->
  Rel B (upd F (flag_at (width B) x k) v) s' V'.
Proof.
  intros B F s V s' V' x k v (Hw & Hh & Ho) R Hx Hk Hv Hb Ho'.
  assert (Q : forall x' k', -1 <= x' <= width B -> word B (upd F (flag_at (width B) x k) v) x' k'
    = if (x' - x =? 0) && (k' - k =? 0) then v else word B F x' k').
  { intros x' k' Hx'. unfold word, upd. pose proof (flag_eq (width B) x k x' k' 0 0 Hw Hx Hx' ltac:(lia)) as E.
    replace (flag_at (width B) x k + 0 + 0 * (width B + 2)) with (flag_at (width B) x k) in E by ring. rewrite E. reflexivity. }
  constructor.
  - intros x' k' Hx' Hk'. rewrite Q by exact Hx'. destruct ((x' - x =? 0) && (k' - k =? 0)); [exact Hv |].
    apply (rel_range _ _ _ _ R); assumption.
  - intros x' k' b Hx' Hk' Hb' Hg. rewrite Q by exact Hx'.
    destruct (Z.eqb_spec (x' - x) 0) as [E1 | E1]; [destruct (Z.eqb_spec (k' - k) 0) as [E2 | E2] |]; cbn [andb].
    + replace x' with x in * by lia. replace k' with k in * by lia. apply Hb; assumption.
    + rewrite Ho' by lia. apply (rel_bit _ _ _ _ R); assumption.
    + rewrite Ho' by lia. apply (rel_bit _ _ _ _ R); assumption.
Qed.

Lemma inside_bounds : forall B x y, inside B x y = true -> 0 <= x < width B /\ 0 <= y < height B.
Proof. intros B x y H. unfold inside in H. rewrite !andb_true_iff, !Z.leb_le, !Z.ltb_lt in H. lia. Qed.
Lemma inside_true : forall B x y, 0 <= x < width B -> 0 <= y < height B -> inside B x y = true.
Proof. intros B x y Hx Hy. unfold inside. rewrite !andb_true_iff, !Z.leb_le, !Z.ltb_lt. lia. Qed.

Lemma inside_stripe : forall B x k ci, 0 <= ci < 4 -> inside B x (4 * k + ci) = true -> 0 <= k < stripes B.
Proof.
  intros B x k ci Hc H. apply inside_bounds in H. unfold stripes. split; [lia |].
  apply Z.lt_le_trans with ((4 * (k + 1)) / 4); [rewrite Z.mul_comm, Z.div_mul; lia |]. apply Z.div_le_mono; lia.
Qed.

Lemma div3 : forall a ci, 0 <= a < 3 -> (a + 3 * ci) / 3 = ci /\ (a + 3 * ci) mod 3 = a.
Proof.
  intros a ci Ha. rewrite (Z.mul_comm 3 ci). rewrite Z.div_add, Z_mod_plus_full, Z.div_small, Z.mod_small by lia. lia.
Qed.

(** The bits of row [ci], read. *)
Lemma ebit_near : forall B s V x k a ci, 0 <= ci < 4 -> 0 <= a < 9 ->
  ebit B s V x k (a + 3 * ci) = near_bit B s (x + (a mod 3 - 1)) (4 * k + ci + (a / 3 - 1)) (ci + (a / 3 - 1)).
Proof.
  intros B s V x k a ci Hc Ha. unfold ebit. replace (a + 3 * ci <? 18) with true by (symmetry; apply Z.ltb_lt; lia).
  rewrite (Z.mul_comm 3 ci), Z.div_add, Z_mod_plus_full by lia. f_equal; lia.
Qed.

Lemma ebit_mu : forall B s V x k ci, 0 <= ci < 4 ->
  ebit B s V x k (20 + 3 * ci) = inside B x (4 * k + ci) && refined s x (4 * k + ci).
Proof.
  intros B s V x k ci Hc. unfold ebit. replace (20 + 3 * ci <? 18) with false by (symmetry; apply Z.ltb_ge; lia).
  replace (20 + 3 * ci =? 18) with false by (symmetry; apply Z.eqb_neq; lia).
  replace (20 + 3 * ci - 19) with (1 + 3 * ci) by lia. replace (20 + 3 * ci - 20) with (0 + 3 * ci) by lia.
  destruct (div3 1 ci) as [_ ->]; [lia |]. destruct (div3 0 ci) as [-> _]; [lia |]. reflexivity.
Qed.

Lemma ebit_pi : forall B s V x k ci, 0 <= ci < 4 ->
  ebit B s V x k (21 + 3 * ci) = inside B x (4 * k + ci) && V x (4 * k + ci).
Proof.
  intros B s V x k ci Hc. unfold ebit. replace (21 + 3 * ci <? 18) with false by (symmetry; apply Z.ltb_ge; lia).
  replace (21 + 3 * ci =? 18) with false by (symmetry; apply Z.eqb_neq; lia).
  replace (21 + 3 * ci - 19) with (2 + 3 * ci) by lia. replace (21 + 3 * ci - 21) with (0 + 3 * ci) by lia.
  destruct (div3 2 ci) as [_ ->]; [lia |]. destruct (div3 0 ci) as [-> _]; [lia |]. reflexivity.
Qed.

Lemma ebit_chi : forall B s V x k r, 0 <= r <= 4 ->
  ebit B s V x k (19 + 3 * r) = near_bit B s x (4 * k + r) r && negative B x (4 * k + r).
Proof.
  intros B s V x k r Hc. unfold ebit. replace (19 + 3 * r <? 18) with false by (symmetry; apply Z.ltb_ge; lia).
  replace (19 + 3 * r =? 18) with false by (symmetry; apply Z.eqb_neq; lia).
  replace (19 + 3 * r - 19) with (0 + 3 * r) by lia. destruct (div3 0 r) as [-> ->]; [lia |]. reflexivity.
Qed.

Lemma guard_false : forall B k b, (b < 21 \/ (b - 21) mod 3 <> 0) -> guard B k b = false.
Proof.
  intros B k b H. unfold guard. destruct (Z.leb_spec 21 b); [| reflexivity]. destruct (Z.eqb_spec ((b - 21) mod 3) 0); [lia | reflexivity].
Qed.
Lemma guard_in : forall B x k ci, 0 <= ci < 4 -> inside B x (4 * k + ci) = true -> guard B k (21 + 3 * ci) = false.
Proof.
  intros B x k ci Hc H. apply inside_bounds in H. unfold guard. replace (21 + 3 * ci - 21) with (0 + 3 * ci) by lia.
  destruct (div3 0 ci) as [-> ->]; [lia |]. replace (height B <=? 4 * k + ci) with false by (symmetry; apply Z.leb_gt; lia).
  apply andb_false_r.
Qed.

Lemma row_mod : forall k ci, 0 <= ci < 4 -> (4 * k + ci) mod 4 = ci.
Proof. intros k ci H. rewrite Z.add_comm, Z.mul_comm, Z_mod_plus_full. apply Z.mod_small. lia. Qed.
Lemma row_div : forall k ci, 0 <= ci < 4 -> (4 * k + ci) / 4 = k.
Proof. intros k ci H. rewrite Z.add_comm, Z.mul_comm, Z.div_add, Z.div_small by lia. lia. Qed.

Lemma near_seen : forall B s x k ci dx dy, 0 <= ci < 4 -> -1 <= dy <= 1 ->
  near_bit B s (x + dx) (4 * k + ci + dy) (ci + dy) = seen B s x (4 * k + ci) dx dy.
Proof.
  intros B s x k ci dx dy Hc Hd. unfold near_bit, seen. rewrite row_mod by exact Hc. f_equal. f_equal.
  rewrite <- andb_assoc. f_equal. destruct (Z.eqb_spec (ci + dy) 4), (Z.eqb_spec ci 3), (Z.eqb_spec dy 1); try reflexivity; lia.
Qed.

Section Reads.
  Variables (B : block) (F : mem) (s : state) (V : Z -> Z -> bool) (x k ci : Z).
  Hypotheses (G : good B) (R : Rel B F s V) (Hc : 0 <= ci < 4) (Hin : inside B x (4 * k + ci) = true).
  Local Notation f := (F (flag_at (width B) x k)).
  Local Notation y := (4 * k + ci).

  Lemma read_bit : forall x' b, -1 <= x' <= width B -> 0 <= b < 32 -> guard B k b = false ->
    Z.testbit (F (flag_at (width B) x' k)) b = ebit B s V x' k b.
  Proof. intros x' b Hx' Hb Hg. apply (rel_bit _ _ _ _ R); try assumption. eapply inside_stripe; eassumption. Qed.

  Lemma read_near : forall a, 0 <= a < 9 -> Z.testbit f (a + 3 * ci) = seen B s x y (a mod 3 - 1) (a / 3 - 1).
  Proof.
    intros a Ha. rewrite read_bit; [| apply inside_bounds in Hin; lia | lia | apply guard_false; lia].
    rewrite ebit_near by assumption. apply near_seen; [exact Hc |].
    assert (a / 3 < 3) by (apply Z.div_lt_upper_bound; lia). pose proof (Z.div_pos a 3). lia.
  Qed.

  Lemma read_this : Z.testbit f (4 + 3 * ci) = significant s x y.
  Proof.
    rewrite read_near by lia. unfold seen. change (4 mod 3 - 1) with 0. change (4 / 3 - 1) with 0. rewrite !Z.add_0_r, Hin.
    rewrite (andb_false_r (causal B && _)). rewrite andb_true_r. reflexivity.
  Qed.

  Lemma read_pi : Z.testbit f (21 + 3 * ci) = V x y.
  Proof.
    rewrite read_bit; [| apply inside_bounds in Hin; lia | lia | eapply guard_in; eassumption].
    rewrite ebit_pi, Hin by exact Hc. reflexivity.
  Qed.

  Lemma read_mu : Z.testbit f (20 + 3 * ci) = refined s x y.
  Proof.
    rewrite read_bit; [| apply inside_bounds in Hin; lia | lia |].
    - rewrite ebit_mu, Hin by exact Hc. reflexivity.
    - apply guard_false. destruct (Z.eq_dec ci 0); [lia | right]. replace (20 + 3 * ci - 21) with (2 + 3 * (ci - 1)) by lia.
      destruct (div3 2 (ci - 1)) as [_ ->]; lia.
  Qed.

  Lemma read_quiet : quiet f ci = negb (significant s x y) && negb (V x y).
  Proof. rewrite quiet_bits, read_this, read_pi by exact Hc. reflexivity. Qed.
  Lemma read_to_refine : to_refine f ci = significant s x y && negb (V x y).
  Proof. rewrite to_refine_bits, read_this, read_pi by exact Hc. reflexivity. Qed.

  Lemma near_list : existsb (Z.testbit f) (map (fun b => b + 3 * ci) [0; 1; 2; 3; 5; 6; 7; 8]) = any_seen B s x y.
  Proof.
    cbn [map existsb]. rewrite !read_near by lia. unfold any_seen, horizontal, vertical, diagonal, count. cbn [fold_right].
    change (0 mod 3 - 1) with (-1). change (1 mod 3 - 1) with 0. change (2 mod 3 - 1) with 1. change (3 mod 3 - 1) with (-1).
    change (5 mod 3 - 1) with 1. change (6 mod 3 - 1) with (-1). change (7 mod 3 - 1) with 0. change (8 mod 3 - 1) with 1.
    change (0 / 3 - 1) with (-1). change (1 / 3 - 1) with (-1). change (2 / 3 - 1) with (-1). change (3 / 3 - 1) with 0.
    change (5 / 3 - 1) with 0. change (6 / 3 - 1) with 1. change (7 / 3 - 1) with 1. change (8 / 3 - 1) with 1.
    destruct (seen B s x y (-1) (-1)), (seen B s x y 0 (-1)), (seen B s x y 1 (-1)), (seen B s x y (-1) 0),
      (seen B s x y 1 0), (seen B s x y (-1) 1), (seen B s x y 0 1), (seen B s x y 1 1); reflexivity.
  Qed.

  Lemma read_any : near f ci = any_seen B s x y.
  Proof. rewrite near_bits by exact Hc. apply near_list. Qed.

  Lemma shifted : forall a, 0 <= a -> Z.testbit (Z.shiftr f (3 * ci)) a = Z.testbit f (a + 3 * ci).
  Proof. intros a Ha. apply Z.shiftr_spec. exact Ha. Qed.

  Lemma read_zc : getctxno_zc (band B) (Z.shiftr f (3 * ci)) = context_of B s x y.
  Proof.
    rewrite zc_bits by apply G. rewrite !shifted, !read_near by lia. unfold context_of, horizontal, vertical, diagonal.
    change (0 mod 3 - 1) with (-1). change (1 mod 3 - 1) with 0. change (2 mod 3 - 1) with 1. change (3 mod 3 - 1) with (-1).
    change (5 mod 3 - 1) with 1. change (6 mod 3 - 1) with (-1). change (7 mod 3 - 1) with 0. change (8 mod 3 - 1) with 1.
    change (0 / 3 - 1) with (-1). change (1 / 3 - 1) with (-1). change (2 / 3 - 1) with (-1). change (3 / 3 - 1) with 0.
    change (5 / 3 - 1) with 0. change (6 / 3 - 1) with 1. change (7 / 3 - 1) with 1. change (8 / 3 - 1) with 1. reflexivity.
  Qed.

  Lemma read_mag : getctxno_mag (Z.shiftr f (3 * ci)) = refine_context B s x y.
  Proof.
    rewrite mag_bits. rewrite shifted, read_mu by lia. unfold refine_context. destruct (refined s x y); [reflexivity |].
    rewrite <- near_list. cbn [map existsb]. rewrite !shifted by lia. reflexivity.
  Qed.

  Lemma read_sc : let lu := sc_index f (F (flag_at (width B) x k - 1)) (F (flag_at (width B) x k + 1)) ci in
    (getctxno_sc lu, getspb lu) = sign_context B s x y.
  Proof.
    cbv zeta. rewrite sc_bits by exact Hc.
    replace (flag_at (width B) x k - 1) with (flag_at (width B) (x - 1) k) by (unfold flag_at; lia).
    replace (flag_at (width B) x k + 1) with (flag_at (width B) (x + 1) k) by (unfold flag_at; lia).
    pose proof (proj1 (inside_bounds _ _ _ Hin)) as Hx.
    assert (Gc : forall r, guard B k (19 + 3 * r) = false).
    { intros r. apply guard_false. right. replace (19 + 3 * r - 21) with (1 + 3 * (r - 1)) by lia. destruct (div3 1 (r - 1)) as [_ ->]; lia. }
    rewrite (read_bit (x - 1) (19 + 3 * ci)), (read_bit (x + 1) (19 + 3 * ci)) by (try apply Gc; lia).
    replace (22 + 3 * ci) with (19 + 3 * (ci + 1)) by lia. rewrite (read_bit x (19 + 3 * (ci + 1))) by (try apply Gc; lia).
    rewrite !ebit_chi by lia.
    assert (N : Z.testbit f (if ci =? 0 then 18 else 16 + 3 * ci) = near_bit B s x (y + (-1)) (ci + (-1)) && negative B x (y + (-1))).
    { destruct (Z.eqb_spec ci 0) as [E | E].
      - rewrite read_bit by (try apply guard_false; lia). unfold ebit. cbn [Z.ltb Z.compare Pos.compare Pos.compare_cont Z.eqb Pos.eqb]. subst ci.
        replace (4 * k + 0 + -1) with (4 * k - 1) by lia. reflexivity.
      - replace (16 + 3 * ci) with (19 + 3 * (ci - 1)) by lia. rewrite read_bit by (try apply Gc; lia). rewrite ebit_chi by lia.
        replace (4 * k + (ci - 1)) with (y + -1) by lia. replace (ci - 1) with (ci + -1) by lia. reflexivity. }
    rewrite N. rewrite !read_near by lia.
    change (1 mod 3 - 1) with 0. change (3 mod 3 - 1) with (-1). change (5 mod 3 - 1) with 1. change (7 mod 3 - 1) with 0.
    change (1 / 3 - 1) with (-1). change (3 / 3 - 1) with 0. change (5 / 3 - 1) with 0. change (7 / 3 - 1) with 1.
    assert (S1 : forall dx dy, -1 <= dy <= 1 -> near_bit B s (x + dx) (y + dy) (ci + dy) = seen B s x y dx dy)
      by (intros; apply near_seen; assumption).
    pose proof (S1 (-1) 0 ltac:(lia)) as W. pose proof (S1 1 0 ltac:(lia)) as E. pose proof (S1 0 (-1) ltac:(lia)) as Nn. pose proof (S1 0 1 ltac:(lia)) as Ss.
    rewrite !Z.add_0_r in W, E. rewrite !Z.add_0_r in Nn, Ss.
    replace (x - 1) with (x + -1) by lia. rewrite W, E, Nn. replace (4 * k + (ci + 1)) with (y + 1) by lia. rewrite Ss.
    rewrite sc_tables. unfold sign_context, contribution, contrib. rewrite !Z.add_0_r. reflexivity.
  Qed.
End Reads.

(** The bits of row [ci], written. *)
Lemma testbit_shl : forall a ci b, 0 <= a -> 0 <= ci < 4 -> a + 3 * ci < 32 -> 0 <= b < 32 ->
  Z.testbit (shl (bit a) (3 * ci)) b = (a + 3 * ci =? b).
Proof.
  intros a ci b Ha Hc H Hb. unfold shl, u32. change (2 ^ 32) with (2 ^ 32).
  assert (E : Z.shiftl (bit a) (3 * ci) = bit (a + 3 * ci)) by (unfold bit; rewrite Z.shiftl_shiftl by lia; reflexivity).
  rewrite E. rewrite Z.mod_small; [apply testbit_bit; lia |].
  unfold bit. rewrite Z.shiftl_1_l. split; [apply Z.pow_nonneg; lia |]. apply Z.pow_lt_mono_r; lia.
Qed.

Lemma shl_range : forall a n, 0 <= shl a n < 2 ^ 32.
Proof. intros. unfold shl, u32. apply Z.mod_pos_bound. lia. Qed.

Lemma set_other : forall {A} (f : Z -> Z -> A) x y v x' y', x' <> x \/ y' <> y -> set f x y v x' y' = f x' y'.
Proof. intros A f x y v x' y' H. unfold set. destruct (Z.eqb_spec x' x), (Z.eqb_spec y' y); cbn [andb]; try reflexivity; lia. Qed.
Lemma set_same : forall {A} (f : Z -> Z -> A) x y v, set f x y v x y = v.
Proof. intros. unfold set. rewrite !Z.eqb_refl. reflexivity. Qed.

Lemma mod3_cases : forall b, 19 <= b < 32 -> (exists r, 0 <= r <= 4 /\ b = 19 + 3 * r) \/ (exists r, 0 <= r < 4 /\ b = 20 + 3 * r) \/ (exists r, 0 <= r < 4 /\ b = 21 + 3 * r).
Proof.
  intros b H. pose proof (Z.div_mod (b - 19) 3). pose proof (Z.mod_pos_bound (b - 19) 3).
  assert ((b - 19) mod 3 = 0 \/ (b - 19) mod 3 = 1 \/ (b - 19) mod 3 = 2) as [E | [E | E]] by lia;
  [left; exists ((b - 19) / 3) | right; left; exists ((b - 19) / 3) | right; right; exists ((b - 19) / 3)]; split; lia.
Qed.

(** Bits other than the marks depend on significance only. *)
Lemma ebit_low : forall B s s' V V' x k b, b < 19 \/ (exists r, 0 <= r <= 4 /\ b = 19 + 3 * r) ->
  significant s' = significant s -> ebit B s' V' x k b = ebit B s V x k b.
Proof.
  intros B s s' V V' x k b [H | (r & Hr & ->)] E.
  - unfold ebit, near_bit. rewrite E. destruct (b <? 18) eqn:E1; [reflexivity |]. apply Z.ltb_ge in E1.
    replace (b =? 18) with true by (symmetry; apply Z.eqb_eq; lia). reflexivity.
  - rewrite !ebit_chi by exact Hr. unfold near_bit. rewrite E. reflexivity.
Qed.

Lemma rel_visited : forall B F s V x k ci, good B -> Rel B F s V -> 0 <= ci < 4 -> inside B x (4 * k + ci) = true ->
  Rel B (or_at F (flag_at (width B) x k) (shl T1_PI_THIS (3 * ci))) s (set V x (4 * k + ci) true).
Proof.
  intros B F s V x k ci G R Hc Hin. pose proof (inside_bounds _ _ _ Hin) as [Hx Hy]. pose proof (inside_stripe _ _ _ _ Hc Hin) as Hk.
  unfold or_at. apply (rel_word B F s V); try assumption.
  - apply lor_range; [apply (rel_range _ _ _ _ R); lia | apply shl_range].
  - intros b Hb Hg. rewrite Z.lor_spec. unfold T1_PI_THIS. rewrite testbit_shl by lia.
    fold (word B F x k). rewrite (rel_bit _ _ _ _ R) by (try assumption; lia).
    destruct (Z_lt_ge_dec b 19) as [L | L].
    + replace (21 + 3 * ci =? b) with false by (symmetry; apply Z.eqb_neq; lia). rewrite orb_false_r. apply ebit_low; auto.
    + destruct (mod3_cases b ltac:(lia)) as [(r & Hr & ->) | [(r & Hr & ->) | (r & Hr & ->)]].
      * replace (21 + 3 * ci =? 19 + 3 * r) with false by (symmetry; apply Z.eqb_neq; lia). rewrite orb_false_r. apply ebit_low; eauto.
      * replace (21 + 3 * ci =? 20 + 3 * r) with false by (symmetry; apply Z.eqb_neq; lia). rewrite orb_false_r, !ebit_mu by exact Hr. reflexivity.
      * rewrite !ebit_pi by exact Hr. destruct (Z.eqb_spec (21 + 3 * ci) (21 + 3 * r)) as [E | E].
        -- replace r with ci by lia. rewrite set_same, Hin, orb_true_r. reflexivity.
        -- rewrite set_other by lia. apply orb_false_r.
  - intros x' k' b Hne Hb. destruct (Z_lt_ge_dec b 19) as [L | L]; [apply ebit_low; auto |].
    destruct (mod3_cases b ltac:(lia)) as [(r & Hr & ->) | [(r & Hr & ->) | (r & Hr & ->)]].
    + apply ebit_low; eauto.
    + rewrite !ebit_mu by exact Hr. reflexivity.
    + rewrite !ebit_pi by exact Hr. rewrite set_other by lia. reflexivity.
Qed.

Lemma rel_refined : forall B F s V x k ci, good B -> Rel B F s V -> 0 <= ci < 4 -> inside B x (4 * k + ci) = true ->
  Rel B (or_at F (flag_at (width B) x k) (shl T1_MU_THIS (3 * ci))) (set_refined s x (4 * k + ci)) V.
Proof.
  intros B F s V x k ci G R Hc Hin. pose proof (inside_bounds _ _ _ Hin) as [Hx Hy]. pose proof (inside_stripe _ _ _ _ Hc Hin) as Hk.
  unfold or_at. apply (rel_word B F s V); try assumption.
  - apply lor_range; [apply (rel_range _ _ _ _ R); lia | apply shl_range].
  - intros b Hb Hg. rewrite Z.lor_spec. unfold T1_MU_THIS. rewrite testbit_shl by lia.
    fold (word B F x k). rewrite (rel_bit _ _ _ _ R) by (try assumption; lia).
    destruct (Z_lt_ge_dec b 19) as [L | L].
    + replace (20 + 3 * ci =? b) with false by (symmetry; apply Z.eqb_neq; lia). rewrite orb_false_r. apply ebit_low; auto.
    + destruct (mod3_cases b ltac:(lia)) as [(r & Hr & ->) | [(r & Hr & ->) | (r & Hr & ->)]].
      * replace (20 + 3 * ci =? 19 + 3 * r) with false by (symmetry; apply Z.eqb_neq; lia). rewrite orb_false_r. apply ebit_low; eauto.
      * rewrite !ebit_mu by exact Hr. cbn [set_refined refined]. destruct (Z.eqb_spec (20 + 3 * ci) (20 + 3 * r)) as [E | E].
        -- replace r with ci by lia. rewrite set_same, Hin, orb_true_r. reflexivity.
        -- rewrite set_other by lia. apply orb_false_r.
      * replace (20 + 3 * ci =? 21 + 3 * r) with false by (symmetry; apply Z.eqb_neq; lia). rewrite orb_false_r, !ebit_pi by exact Hr. reflexivity.
  - intros x' k' b Hne Hb. destruct (Z_lt_ge_dec b 19) as [L | L]; [apply ebit_low; auto |].
    destruct (mod3_cases b ltac:(lia)) as [(r & Hr & ->) | [(r & Hr & ->) | (r & Hr & ->)]].
    + apply ebit_low; eauto.
    + rewrite !ebit_mu by exact Hr. cbn [set_refined refined]. rewrite set_other by lia. reflexivity.
    + rewrite !ebit_pi by exact Hr. reflexivity.
Qed.

(** Clearing the visited marks of a set [L] of rows. *)
Definition unmark (V : Z -> Z -> bool) (x k : Z) (L : list Z) : Z -> Z -> bool :=
  fun x' y' => if (x' =? x) && existsb (fun r => y' =? 4 * k + r) L then false else V x' y'.

Lemma rel_unmark : forall B F s V x k L m, good B -> Rel B F s V -> 0 <= x < width B -> 0 <= k < stripes B ->
  Forall (fun r => 0 <= r < 4) L ->
  (forall b, 0 <= b < 32 -> Z.testbit (not32 m) b = negb (existsb (fun r => b =? 21 + 3 * r) L)) ->
  Rel B (and_at F (flag_at (width B) x k) (not32 m)) s (unmark V x k L).
Proof.
  intros B F s V x k L m G R Hx Hk HL Hm.
  unfold and_at. apply (rel_word B F s V); try assumption.
  - apply land_range. apply (rel_range _ _ _ _ R); lia.
  - intros b Hb Hg. rewrite Z.land_spec, Hm by exact Hb.
    fold (word B F x k). rewrite (rel_bit _ _ _ _ R) by (try assumption; lia).
    destruct (existsb (fun r => b =? 21 + 3 * r) L) eqn:E.
    + apply existsb_exists in E. destruct E as (r & I & E). apply Z.eqb_eq in E. subst b.
      pose proof (proj1 (Forall_forall _ _) HL r I) as Hr.
      rewrite !ebit_pi by exact Hr. unfold unmark. rewrite Z.eqb_refl.
      replace (existsb (fun r0 => 4 * k + r =? 4 * k + r0) L) with true
        by (symmetry; apply existsb_exists; exists r; split; [exact I | apply Z.eqb_refl]).
      cbn [andb negb]. rewrite !andb_false_r. reflexivity.
    + cbn [negb]. rewrite andb_true_r. symmetry. destruct (Z_lt_ge_dec b 19) as [Lb | Lb]; [apply ebit_low; auto |].
      destruct (mod3_cases b ltac:(lia)) as [(r & Hr & ->) | [(r & Hr & ->) | (r & Hr & ->)]].
      * apply ebit_low; eauto.
      * rewrite !ebit_mu by exact Hr. reflexivity.
      * rewrite !ebit_pi by exact Hr. unfold unmark. rewrite Z.eqb_refl.
        replace (existsb (fun r0 => 4 * k + r =? 4 * k + r0) L) with false; [reflexivity |].
        rewrite <- E. clear. induction L as [| a L IH]; [reflexivity |]. cbn [existsb]. rewrite IH. f_equal.
        destruct (Z.eqb_spec (21 + 3 * r) (21 + 3 * a)), (Z.eqb_spec (4 * k + r) (4 * k + a)); lia.
  - intros x' k' b Hne Hb. destruct (Z_lt_ge_dec b 19) as [Lb | Lb]; [apply ebit_low; auto |].
    destruct (mod3_cases b ltac:(lia)) as [(r & Hr & ->) | [(r & Hr & ->) | (r & Hr & ->)]].
    + apply ebit_low; eauto.
    + rewrite !ebit_mu by exact Hr. reflexivity.
    + rewrite !ebit_pi by exact Hr. unfold unmark. destruct (Z.eqb_spec x' x) as [-> |]; [| reflexivity].
      replace (existsb (fun r0 => 4 * k' + r =? 4 * k + r0) L) with false; [reflexivity |]. symmetry.
      destruct (existsb (fun r0 => 4 * k' + r =? 4 * k + r0) L) eqn:E; [| reflexivity]. exfalso.
      apply existsb_exists in E. destruct E as (r0 & I & E). apply Z.eqb_eq in E.
      pose proof (proj1 (Forall_forall _ _) HL r0 I) as Hr0. cbv beta in Hr0. lia.
Qed.

Lemma not32_bit : forall m b, 0 <= b < 32 -> Z.testbit (not32 m) b = negb (Z.testbit m b).
Proof.
  intros m b Hb. unfold not32. rewrite Z.lxor_spec.
  replace (Z.testbit 4294967295 b) with true; [destruct (Z.testbit m b); reflexivity |].
  change 4294967295 with (Z.ones 32). symmetry. apply Z.ones_spec_low. lia.
Qed.

(** The relation looks at the block only. *)
Lemma rel_ext : forall B F s V s' V', Rel B F s V ->
  (forall x y, inside B x y = true -> significant s' x y = significant s x y /\ refined s' x y = refined s x y /\ V' x y = V x y) ->
  Rel B F s' V'.
Proof.
  intros B F s V s' V' R H. constructor; [apply (rel_range _ _ _ _ R) |]. intros x k b Hx Hk Hb Hg.
  rewrite (rel_bit _ _ _ _ R) by assumption. unfold ebit, near_bit.
  assert (N : forall x' y', inside B x' y' && significant s x' y' = inside B x' y' && significant s' x' y').
  { intros x' y'. destruct (inside B x' y') eqn:E; [| reflexivity]. destruct (H _ _ E) as [-> _]. reflexivity. }
  rewrite !N. destruct (b <? 18); [reflexivity |]. destruct (b =? 18); [reflexivity |]. destruct ((b - 19) mod 3 =? 0); [reflexivity |].
  destruct ((b - 19) mod 3 =? 1).
  - destruct (inside B x (4 * k + (b - 20) / 3)) eqn:E; [| reflexivity]. destruct (H _ _ E) as (_ & -> & _). reflexivity.
  - destruct (inside B x (4 * k + (b - 21) / 3)) eqn:E; [| reflexivity]. destruct (H _ _ E) as (_ & _ & ->). reflexivity.
Qed.
