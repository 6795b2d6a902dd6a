(** Code-blocks on one axis cover a band without overlap; then both axes. *)

From Coq Require Import ZArith List Lia Bool.
From Verif Require Import I32 Ints MathModel MathProps GeomModel GeomProofs.
Import ListNotations.
Local Open Scope Z_scope.

(** Code-block [j] of precinct [k] on one axis. *)
Definition cell_count (g e ce : Z) (b : Z * Z) (k : Z) : Z := snd (blocks_axis (precinct_axis g e b k) ce).
Definition cell (g e ce : Z) (b : Z * Z) (k j : Z) : Z * Z :=
  let p := precinct_axis g e b k in block_axis p (fst (blocks_axis p ce)) ce j.

Lemma floor_ge : forall a d x s, 1 <= d -> a * d <= x -> x < (s + 1) * d -> a <= s.
Proof. intros. destruct (Z_le_gt_dec a s); [assumption | nia]. Qed.
Lemma ceil_le : forall b d x t, 1 <= d -> x <= b * d -> (t - 1) * d < x -> t <= b.
Proof. intros. destruct (Z_le_gt_dec t b); [assumption | nia]. Qed.

Lemma div_is : forall q d x, 1 <= d -> q * d <= x -> x < (q + 1) * d -> q = x / d.
Proof. intros. apply (Z.div_unique_pos x d q (x - q * d)); lia. Qed.
Lemma aligned_empty : forall s t i d, 1 <= d -> s * d <= i * d -> (t - 1) * d < i * d -> i * d < (s + 1) * d -> t <= s.
Proof. intros. assert (i < s + 1) by nia. assert (t - 1 < i) by nia. lia. Qed.

Section Axis.
  Variables (g e ce n : Z) (b : Z * Z).
  Hypothesis Hg : grid_ok g e n b.
  Hypothesis Hce : 0 <= ce <= e.

  Lemma cell_spec : forall k, 0 <= k < n ->
    let p := (Z.max (g + k * 2 ^ e) (fst b), Z.min (g + (k + 1) * 2 ^ e) (snd b)) in
    precinct_axis g e b k = p /\ 0 <= fst p <= snd p /\
    exists s t, cell_count g e ce b k = t - s /\ 0 <= s <= t /\ t - s <= 2 ^ 15 /\
      s * 2 ^ ce <= fst p < (s + 1) * 2 ^ ce /\ ceil_of (snd p) (2 ^ ce) t /\
      forall j, 0 <= j < t - s ->
        cell g e ce b k j = (Z.max ((s + j) * 2 ^ ce) (fst p), Z.min ((s + j + 1) * 2 ^ ce) (snd p)).
  Proof.
    intros k Hk. cbn zeta. destruct (precinct_spec g e n b k Hg Hk) as (E & H1 & H2).
    destruct Hg as (Hg0 & He & Hn & (q & Eq) & Hb & Hb1 & _ & _).
    split; [exact E |]. split; [exact H1 |].
    assert (M : 2 ^ e = 2 ^ (e - ce) * 2 ^ ce) by (rewrite <- Z.pow_add_r by lia; f_equal; lia).
    pose proof (pow_pos ce ltac:(lia)) as Pc. pose proof (pow_pos (e - ce) ltac:(lia)) as Pm.
    assert (Pm' : 2 ^ (e - ce) <= 2 ^ 15) by (apply Z.pow_le_mono_r; lia).
    set (m := 2 ^ (e - ce)) in *. set (d := 2 ^ ce) in *.
    set (lo := Z.max (g + k * 2 ^ e) (fst b)) in *. set (hi := Z.min (g + (k + 1) * 2 ^ e) (snd b)) in *.
    assert (Lo : (q + k) * m * d <= lo) by (unfold lo; rewrite M in *; nia).
    assert (Hi : hi <= (q + k + 1) * m * d) by (unfold hi; rewrite M in *; nia).
    destruct (blocks_spec (lo, hi) ce ((q + k + 1) * m)) as (s & t & B & Hs & F & C & T).
    - lia.
    - exact H1.
    - fold d. cbn [snd]. lia.
    - fold d. rewrite M in H2. rewrite Eq in H2. rewrite M in H2. nia.
    - exists s, t. unfold cell_count, cell. rewrite E, B. cbn [fst snd]. cbn [fst snd] in F, C.
      fold d in F, C, T. unfold ceil_of in C.
      assert (W : t - s <= 2 ^ 15).
      { pose proof (floor_ge _ _ _ _ Pc Lo (proj2 F)). pose proof (ceil_le _ _ _ _ Pc Hi (proj1 C)).
        replace ((q + k + 1) * m) with ((q + k) * m + m) in * by lia. lia. }
      repeat split; try lia; try (unfold ceil_of; lia).
      intros j Hj. apply (block_spec (lo, hi) ce s t j); [lia | lia | exact T | exact Hj].
  Qed.

  Lemma cell_in_band : forall k j x, 0 <= k < n -> 0 <= j < cell_count g e ce b k -> within (cell g e ce b k j) x ->
    within b x /\ within (precinct_axis g e b k) x.
  Proof.
    intros k j x Hk Hj H. destruct (cell_spec k Hk) as (E & _ & s & t & Ec & _ & _ & _ & _ & D).
    rewrite Ec in Hj. rewrite (D j Hj) in H. rewrite E. unfold within in *. cbn [fst snd] in *. lia.
  Qed.

  Lemma cell_cover : forall x, within b x ->
    exists k j, 0 <= k < n /\ 0 <= j < cell_count g e ce b k /\ within (cell g e ce b k j) x.
  Proof.
    intros x Hx. unfold within in Hx. destruct Hg as (Hg0 & He & Hn & _ & Hb & Hb1 & H0 & Hp).
    assert (N : 0 < n) by (destruct (Z.eq_dec n 0) as [Z0 | Z0]; [specialize (H0 Z0); lia | lia]).
    destruct (Hp N) as (G1 & G2 & G3). pose proof (pow_pos e ltac:(lia)) as Pe.
    pose proof (Z.div_mod (x - g) (2 ^ e) ltac:(lia)) as E. pose proof (Z.mod_pos_bound (x - g) (2 ^ e) ltac:(lia)) as B.
    set (k := (x - g) / 2 ^ e) in *. assert (Hk : 0 <= k < n) by nia.
    destruct (cell_spec k Hk) as (_ & _ & s & t & Ec & Hst & _ & Hs & Ht & D).
    pose proof (pow_pos ce ltac:(lia)) as Pc.
    pose proof (Z.div_mod x (2 ^ ce) ltac:(lia)) as E'. pose proof (Z.mod_pos_bound x (2 ^ ce) ltac:(lia)) as B'.
    set (i := x / 2 ^ ce) in *. cbn [fst snd] in *. unfold ceil_of in Ht.
    set (lo := Z.max (g + k * 2 ^ e) (fst b)) in *. set (hi := Z.min (g + (k + 1) * 2 ^ e) (snd b)) in *.
    assert (X : lo <= x < hi) by (unfold lo, hi; lia).
    assert (Hj : 0 <= i - s < t - s).
    { assert (s <= i) by (apply (floor_ge s (2 ^ ce) x i); lia).
      assert (i + 1 <= t); [| lia].
      destruct (Z_le_gt_dec (i + 1) t) as [| Hgt]; [assumption | exfalso].
      assert (t * 2 ^ ce <= i * 2 ^ ce) by (apply Z.mul_le_mono_nonneg_r; lia). lia. }
    exists k, (i - s). split; [exact Hk |]. split; [rewrite Ec; exact Hj |]. rewrite (D _ Hj).
    unfold within. cbn [fst snd]. replace (s + (i - s)) with i by lia. lia.
  Qed.

  Lemma cell_unique : forall k j k' j' x, 0 <= k < n -> 0 <= j < cell_count g e ce b k -> within (cell g e ce b k j) x ->
    0 <= k' < n -> 0 <= j' < cell_count g e ce b k' -> within (cell g e ce b k' j') x -> k = k' /\ j = j'.
  Proof.
    intros k j k' j' x Hk Hj H Hk' Hj' H'.
    assert (K : k = k').
    { destruct (cell_in_band k j x Hk Hj H) as [_ A]. destruct (cell_in_band k' j' x Hk' Hj' H') as [_ A'].
      destruct (cell_spec k Hk) as (E & _). destruct (cell_spec k' Hk') as (E' & _).
      rewrite E in A. rewrite E' in A'. unfold within in A, A'. cbn [fst snd] in A, A'.
      destruct Hg as (_ & He & _). pose proof (pow_pos e ltac:(lia)) as Pe.
      rewrite (Z.div_unique_pos (x - g) (2 ^ e) k (x - g - k * 2 ^ e)) by nia.
      rewrite (Z.div_unique_pos (x - g) (2 ^ e) k' (x - g - k' * 2 ^ e)) by nia. reflexivity. }
    split; [exact K |]. subst k'.
    destruct (cell_spec k Hk) as (_ & _ & s & t & Ec & _ & _ & _ & _ & D).
    rewrite Ec in Hj, Hj'. rewrite (D j Hj) in H. rewrite (D j' Hj') in H'.
    unfold within in *. cbn [fst snd] in *. pose proof (pow_pos ce ltac:(lia)) as Pc.
    assert (s + j = s + j'); [| lia].
    rewrite (div_is (s + j) (2 ^ ce) x), (div_is (s + j') (2 ^ ce) x) by lia. reflexivity.
  Qed.

  (** In a band that is not empty no code-block is empty, and none is larger
      than the nominal size. *)
  Lemma cell_size : forall k j, 0 <= k < n -> 0 <= j < cell_count g e ce b k -> fst b < snd b ->
    0 < snd (cell g e ce b k j) - fst (cell g e ce b k j) <= 2 ^ ce.
  Proof.
    intros k j Hk Hj Hb. destruct (cell_spec k Hk) as (_ & Hp & s & t & Ec & Hst & _ & F & C & D).
    rewrite Ec in Hj. rewrite (D j Hj). cbn [fst snd] in *. pose proof (pow_pos ce ltac:(lia)) as Pc. unfold ceil_of in C.
    set (d := 2 ^ ce) in *.
    assert (A : (s + j) * d < Z.min (g + (k + 1) * 2 ^ e) (snd b)) by nia.
    assert (B : Z.max (g + k * 2 ^ e) (fst b) < (s + j + 1) * d) by nia.
    assert (X : (s + j) * d < (s + j + 1) * d) by nia.
    assert (Y : Z.max (g + k * 2 ^ e) (fst b) < Z.min (g + (k + 1) * 2 ^ e) (snd b)).
    { destruct (Z.eq_dec (Z.max (g + k * 2 ^ e) (fst b)) (Z.min (g + (k + 1) * 2 ^ e) (snd b))) as [Eq |]; [exfalso | lia].
      destruct Hg as (Hg0 & He & Hn & (q & Eq') & Hb0 & Hb1 & _ & Hq). destruct (Hq ltac:(lia)) as (G1 & G2 & G3).
      pose proof (pow_pos e ltac:(lia)) as Pe.
      assert (M : 2 ^ e = 2 ^ (e - ce) * d) by (unfold d; rewrite <- Z.pow_add_r by lia; f_equal; lia).
      set (m := 2 ^ (e - ce)) in *.
      assert (Al : exists i, Z.max (g + k * 2 ^ e) (fst b) = i * d).
      { assert (Cs : Z.max (g + k * 2 ^ e) (fst b) = g + k * 2 ^ e \/ Z.max (g + k * 2 ^ e) (fst b) = g + (k + 1) * 2 ^ e) by lia.
        destruct Cs as [-> | ->]; [exists ((q + k) * m) | exists ((q + k + 1) * m)]; rewrite Eq', M; ring. }
      destruct Al as [i Al]. rewrite <- Eq in C. rewrite Al in F, C.
      pose proof (aligned_empty s t i d Pc (proj1 F) (proj1 C) (proj2 F)). lia. }
    lia.
  Qed.
End Axis.

(** ** Both axes *)

Lemma upto_nth : forall n i, 0 <= n -> (i < Z.to_nat n)%nat -> nth_error (upto n) i = Some (Z.of_nat i).
Proof.
  intros n i Hn Hi. unfold upto. rewrite nth_error_map.
  rewrite (nth_error_nth' _ 0%nat) by (rewrite seq_length; exact Hi). rewrite seq_nth by exact Hi. reflexivity.
Qed.

Lemma upto_length : forall n, length (upto n) = Z.to_nat n.
Proof. intros. unfold upto. rewrite map_length, seq_length. reflexivity. Qed.

Lemma all_some_nth : forall {A} (l : list (option A)) r, all_some l = Some r ->
  length r = length l /\ forall i a, nth_error r i = Some a <-> nth_error l i = Some (Some a).
Proof.
  induction l as [| [x |] l IH]; cbn [all_some]; intros r E; [| | discriminate].
  - injection E as <-. split; [reflexivity |]. intros [| i] a; cbn; split; discriminate.
  - destruct (all_some l) as [r' |]; [| discriminate]. injection E as <-. destruct (IH r' eq_refl) as [L N].
    split; [cbn [length]; lia |]. intros [| i] a; cbn [nth_error]; [| apply N].
    split; intros X; injection X as ->; reflexivity.
Qed.

Lemma mul_bound : forall a b n m, 0 <= a <= n -> 0 <= b <= m -> 0 <= a * b <= n * m.
Proof. intros. nia. Qed.
