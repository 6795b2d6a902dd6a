(** The windows of one level on one axis, without wrap-around: the resolution
    is [A, B), the window at that resolution [P, Q). *)

From Coq Require Import ZArith List Bool Lia.
From Verif Require Import I32 Ints Mem DwtModel DwtSpec SparseModel MathModel MathProps DwtProps GeomModel PiSpec TileGeom SampleProofs WindowModel WindowLine.
Import ListNotations.
Local Open Scope Z_scope.
Local Notation u32 := Ints.u32.
Ltac Zify.zify_post_hook ::= Z.div_mod_to_equations.

Definition ax (A B P Q : Z) : axis :=
  let sn := (B + 1) / 2 - (A + 1) / 2 in
  let dn := B / 2 - A / 2 in
  let low := (Z.max 0 ((P + 1) / 2 - (A + 1) / 2 - 2), Z.min sn ((Q + 1) / 2 - (A + 1) / 2 + 2)) in
  let high := (Z.max 0 (P / 2 - A / 2 - 2), Z.min dn (Q / 2 - A / 2 + 2)) in
  mkAxis (B - A) sn dn (A mod 2) low high
    (if A mod 2 =? 0
     then (Z.min (2 * fst low) (2 * fst high + 1), Z.min (Z.max (2 * snd low) (2 * snd high + 1)) (B - A))
     else (Z.min (2 * fst high) (2 * fst low + 1), Z.min (Z.max (2 * snd high) (2 * snd low + 1)) (B - A))).

(** The samples of a resolution that the window of the next level needs. *)
Definition need (A B P Q t : Z) : Prop := Z.max 0 (P - A - 2) <= t < Z.min (B - A) (Q - A + 2).

Lemma ax_sizes : forall A B P Q, A <= B ->
  a_sn (ax A B P Q) = nlow (A mod 2) (B - A) /\ a_dn (ax A B P Q) = nhigh (A mod 2) (B - A) /\
  0 <= a_sn (ax A B P Q) /\ 0 <= a_dn (ax A B P Q) /\ a_sn (ax A B P Q) + a_dn (ax A B P Q) = B - A.
Proof. intros A B P Q H. unfold ax, nhigh, nlow. cbn [a_sn a_dn]. lia. Qed.

Lemma ax_low : forall A B P Q, A <= P <= Q -> Q <= B -> let a := ax A B P Q in
  0 <= fst (a_low a) <= snd (a_low a) /\ snd (a_low a) <= a_sn a /\ (a_sn a > 0 -> fst (a_low a) < snd (a_low a)).
Proof. intros A B P Q H1 H2. unfold ax. cbn [a_low fst snd a_sn]. lia. Qed.

Lemma ax_high : forall A B P Q, A <= P <= Q -> Q <= B -> let a := ax A B P Q in
  0 <= fst (a_high a) <= snd (a_high a) /\ snd (a_high a) <= a_dn a /\ (a_dn a > 0 -> fst (a_high a) < snd (a_high a)).
Proof. intros A B P Q H1 H2. unfold ax. cbn [a_high fst snd a_dn]. lia. Qed.

Lemma ax_out : forall A B P Q, A <= P <= Q -> Q <= B -> let a := ax A B P Q in
  0 <= fst (a_out a) <= snd (a_out a) /\ snd (a_out a) <= B - A.
Proof. intros A B P Q H1 H2. unfold ax. cbn [a_out]. destruct (Z.eqb_spec (A mod 2) 0); cbn [a_low a_high fst snd]; lia. Qed.

Lemma need_out : forall A B P Q t, A <= P <= Q -> Q <= B -> need A B P Q t ->
  fst (a_out (ax A B P Q)) <= t < snd (a_out (ax A B P Q)).
Proof.
  intros A B P Q t H1 H2 H. unfold need in H. unfold ax. cbn [a_out]. destruct (Z.eqb_spec (A mod 2) 0); cbn [a_low a_high fst snd]; lia.
Qed.

Lemma ax_starts : forall A B P Q, A <= P <= Q -> Q <= B -> B - A <= 2 ^ 30 -> let a := ax A B P Q in
  fst (a_low a) <= 2 ^ 29 - 1 /\ fst (a_high a) <= 2 ^ 29 - 1 /\ fst (a_out a) <= 2 ^ 30 - 1.
Proof. intros A B P Q H1 H2 H3. unfold ax. cbn [a_low a_high a_out]. destruct (A mod 2 =? 0); cbn [fst snd]; lia. Qed.

Lemma clamp_in : forall d lo hi i, 1 <= d -> lo <= i < hi -> lo <= d - 1 -> 0 < hi -> Z.max 0 lo <= clamp d i < Z.min d hi.
Proof. intros d lo hi i H1 H2 H3 H4. unfold clamp. lia. Qed.

(** Everything needed is computed from coefficients in the windows. *)
Lemma need_done : forall A B P Q t, A <= P <= Q -> Q <= B -> need A B P Q t -> let a := ax A B P Q in
  done_ (A mod 2) (B - A) (fst (a_low a)) (snd (a_low a)) (fst (a_high a)) (snd (a_high a)) t.
Proof.
  intros A B P Q t H1 H2 H a. assert (H0 : P - A - 2 <= t < Q - A + 2 /\ 0 <= t < B - A) by (unfold need in H; lia). clear H. subst a.
  destruct (ax_sizes A B P Q ltac:(lia)) as (E1 & E2 & _). unfold ax in *. cbn [a_low a_high a_sn a_dn fst snd] in *.
  unfold done_, high_done, low_done, has_low, has_high. rewrite <- E1, <- E2. clear E1 E2.
  set (s := (B + 1) / 2 - (A + 1) / 2). set (d := B / 2 - A / 2).
  destruct (Z.eqb_spec (B - A) 1).
  - destruct (Z.eqb_spec (A mod 2) 0); subst s d; lia.
  - assert (1 <= s /\ 1 <= d) as [Hs Hd] by (subst s d; lia).
    assert (LO : forall i, (P + 1) / 2 - (A + 1) / 2 - 2 <= i < (Q + 1) / 2 - (A + 1) / 2 + 2 ->
              Z.max 0 ((P + 1) / 2 - (A + 1) / 2 - 2) <= clamp s i < Z.min s ((Q + 1) / 2 - (A + 1) / 2 + 2)).
    { intros i Hi. apply clamp_in; [exact Hs | exact Hi | subst s; lia | lia]. }
    assert (HI : forall i, P / 2 - A / 2 - 2 <= i < Q / 2 - A / 2 + 2 ->
              Z.max 0 (P / 2 - A / 2 - 2) <= clamp d i < Z.min d (Q / 2 - A / 2 + 2)).
    { intros i Hi. apply clamp_in; [exact Hd | exact Hi | subst d; lia | lia]. }
    assert (ID : forall m i, 0 <= i < m -> clamp m i = i) by (intros; unfold clamp; lia).
    destruct (Z.eqb_spec (t mod 2) (A mod 2)) as [E | E].
    + split; [rewrite <- (ID s (t / 2)) by (subst s; lia); apply LO; lia |]. split; apply HI; lia.
    + assert (LD : forall j, t / 2 - A mod 2 <= j <= t / 2 - A mod 2 + 1 ->
        (Z.max 0 ((P + 1) / 2 - (A + 1) / 2 - 2) <= clamp s j < Z.min s ((Q + 1) / 2 - (A + 1) / 2 + 2)) /\
        (Z.max 0 (P / 2 - A / 2 - 2) <= clamp d (clamp s j - 1 + A mod 2) < Z.min d (Q / 2 - A / 2 + 2)) /\
        (Z.max 0 (P / 2 - A / 2 - 2) <= clamp d (clamp s j + A mod 2) < Z.min d (Q / 2 - A / 2 + 2))).
      { intros j Hj. split; [apply LO; lia |].
        assert (C : clamp s j = j \/ (j < 0 /\ clamp s j = 0) \/ (s - 1 < j /\ clamp s j = s - 1)) by (clear - Hs; unfold clamp; lia).
        destruct C as [-> | [[C ->] | [C ->]]]; split; apply HI; subst s; lia. }
      split; [rewrite <- (ID d (t / 2)) by (subst d; lia); apply HI; lia |]. split; apply LD; lia.
Qed.

(** ** The model computes these windows *)

Lemma uint_ceil : forall a l, 0 <= a < 2 ^ 32 -> 0 <= l <= 62 -> uint_ceildivpow2 a l = ceildivpow2 a l.
Proof.
  intros a l Ha Hl. rewrite ceildivpow2_eq by lia. assert (P : 0 < 2 ^ l) by (apply Z.pow_pos_nonneg; lia). fold (cdiv a (2 ^ l)).
  apply (MathProps.ceil_unique a (2 ^ l)); [exact P | apply c29_uint_ceildivpow2; [unfold is_u32; lia | lia] | apply cdiv_ceil; exact P].
Qed.
Lemma int64_ceil : forall a l, - 2 ^ 31 <= a < 2 ^ 31 -> 0 <= l <= 60 -> int64_ceildivpow2 a l = (a + 2 ^ l - 1) / 2 ^ l.
Proof.
  intros a l Ha Hl. assert (P : 0 < 2 ^ l) by (apply Z.pow_pos_nonneg; lia). fold (cdiv a (2 ^ l)).
  apply (MathProps.ceil_unique a (2 ^ l)); [exact P | apply c29_int64_ceildivpow2; [lia | lia | nia] | apply cdiv_ceil; exact P].
Qed.

Lemma ceil_le : forall a b l, 0 <= l -> a <= b -> ceildivpow2 a l <= ceildivpow2 b l.
Proof. intros a b l Hl H. pose proof (ceil_diff a b l Hl H). lia. Qed.
Lemma ceil_range : forall a l, 0 <= l -> 0 <= a -> 0 <= ceildivpow2 a l <= a.
Proof.
  intros a l Hl H. pose proof (ceil_diff 0 a l Hl H). pose proof (ceil_nonneg a l Hl H).
  assert (ceildivpow2 0 l = 0); [| lia]. rewrite ceildivpow2_eq by exact Hl.
  assert (0 < 2 ^ l) by (apply Z.pow_pos_nonneg; lia). apply Z.div_small. lia.
Qed.

(** The high-pass samples before coordinate [a]. *)
Lemma floor_step : forall a l, 0 <= l -> (a - 2 ^ l + 2 ^ (l + 1) - 1) / 2 ^ (l + 1) = ceildivpow2 a l / 2.
Proof.
  intros a l Hl. rewrite ceildivpow2_eq by exact Hl. rewrite Z.pow_add_r by lia. change (2 ^ 1) with 2.
  assert (0 < 2 ^ l) by (apply Z.pow_pos_nonneg; lia). set (q := 2 ^ l) in *.
  rewrite Zdiv_Zdiv by lia. f_equal. lia.
Qed.

Lemma shl_i64 : forall l, 0 <= l <= 31 -> i64 (Z.shiftl 1 (l mod 64)) = 2 ^ l.
Proof.
  intros l Hl. rewrite Z.mod_small by lia. rewrite Z.shiftl_1_l. assert (0 < 2 ^ l <= 2 ^ 31) by (split; [apply Z.pow_pos_nonneg; lia | apply Z.pow_le_mono_r; lia]).
  apply i64_id. lia.
Qed.

Lemma band_low : forall resno c l, resno <> 0 -> 0 <= fst c < 2 ^ 31 -> 0 <= l <= 31 ->
  fst (band_axis resno c l 0) = (ceildivpow2 (fst c) l + 1) / 2.
Proof.
  intros resno c l Hr Ha Hl. unfold band_axis. destruct (Z.eqb_spec resno 0); [contradiction |]. cbn [fst].
  rewrite Z.shiftl_0_l. change (i64 0) with 0. rewrite Z.sub_0_r, i64_id by lia. rewrite u32_id by lia.
  rewrite int64_ceil by lia. rewrite <- ceil_step by lia. rewrite ceildivpow2_eq by lia. reflexivity.
Qed.
Lemma band_high : forall resno c l, resno <> 0 -> 0 <= fst c < 2 ^ 31 -> 0 <= l <= 31 ->
  fst (band_axis resno c l 1) = ceildivpow2 (fst c) l / 2.
Proof.
  intros resno c l Hr Ha Hl. unfold band_axis. destruct (Z.eqb_spec resno 0); [contradiction |]. cbn [fst].
  assert (0 < 2 ^ l <= 2 ^ 31) by (split; [apply Z.pow_pos_nonneg; lia | apply Z.pow_le_mono_r; lia]).
  rewrite shl_i64 by lia. rewrite i64_id by lia. rewrite u32_id by lia.
  rewrite int64_ceil by lia. apply floor_step. lia.
Qed.

Lemma coord_low : forall n resno p, 1 <= resno < n -> n <= 33 -> 0 <= p < 2 ^ 31 ->
  band_coord n resno 0 p = (ceildivpow2 p (n - 1 - resno) + 1) / 2.
Proof.
  intros n resno p Hr Hn Hp. unfold band_coord. destruct (Z.eqb_spec resno 0); [lia |]. rewrite (u32_id (n - resno)) by lia.
  destruct (Z.eqb_spec (n - resno) 0); [lia |]. rewrite Z.mul_0_r. change (u32 0) with 0.
  rewrite <- ceil_step by lia. replace (n - 1 - resno + 1) with (n - resno) by lia.
  destruct (Z.leb_spec p 0).
  - replace p with 0 by lia. pose proof (ceil_range 0 (n - resno) ltac:(lia) ltac:(lia)). lia.
  - rewrite Z.sub_0_r, u32_id by lia. apply uint_ceil; lia.
Qed.
Lemma coord_high : forall n resno p, 1 <= resno < n -> n <= 33 -> 0 <= p < 2 ^ 31 ->
  band_coord n resno 1 p = ceildivpow2 p (n - 1 - resno) / 2.
Proof.
  intros n resno p Hr Hn Hp. unfold band_coord. destruct (Z.eqb_spec resno 0); [lia |]. rewrite (u32_id (n - resno)) by lia.
  destruct (Z.eqb_spec (n - resno) 0); [lia |]. rewrite Z.mul_1_r. rewrite (u32_id (n - resno - 1)) by lia.
  replace (n - resno - 1) with (n - 1 - resno) by lia. set (l := n - 1 - resno) in *. assert (Hl : 0 <= l <= 31) by lia.
  assert (0 < 2 ^ l <= 2 ^ 31) by (split; [apply Z.pow_pos_nonneg; lia | apply Z.pow_le_mono_r; lia]).
  assert (D : shl_u32 1 l = 2 ^ l) by (unfold shl_u32; rewrite Z.mod_small by lia; rewrite Z.shiftl_1_l; apply u32_id; lia).
  rewrite D, u32_id by lia. replace (n - resno) with (l + 1) by lia.
  destruct (Z.leb_spec p (2 ^ l)).
  - rewrite ceildivpow2_eq by lia. assert ((p + 2 ^ l - 1) / 2 ^ l < 2) by (apply Z.div_lt_upper_bound; lia).
    assert (0 <= (p + 2 ^ l - 1) / 2 ^ l) by (apply Z.div_pos; lia). lia.
  - rewrite u32_id by lia. rewrite uint_ceil by lia. rewrite ceildivpow2_eq by lia. apply floor_step. lia.
Qed.

Definition in_win (c win : Z * Z) : Prop := 0 <= fst c /\ fst c <= fst win <= snd win /\ snd win <= snd c /\ snd c < 2 ^ 31.

Theorem level_axis_eq : forall n resno c win, 1 <= resno < n -> n <= 33 -> in_win c win ->
  let l := n - 1 - resno in
  level_axis n resno c win = ax (ceildivpow2 (fst c) l) (ceildivpow2 (snd c) l) (ceildivpow2 (fst win) l) (ceildivpow2 (snd win) l).
Proof.
  intros n resno c win Hr Hn (I1 & I2 & I3 & I4) l. unfold level_axis. fold l. unfold size_of, res_axis. cbn [fst snd].
  replace (n - 1 - (resno - 1)) with (l + 1) by lia. assert (Hl : 0 <= l <= 31) by lia.
  rewrite <- !ceil_same by lia. rewrite !band_low, !band_high, !coord_low, !coord_high by lia. fold l. rewrite !ceil_step by lia.
  pose proof (ceil_range (fst c) l ltac:(lia) ltac:(lia)) as R1. pose proof (ceil_range (snd c) l ltac:(lia) ltac:(lia)) as R2.
  pose proof (ceil_le (fst c) (fst win) l ltac:(lia) ltac:(lia)) as R3. pose proof (ceil_le (fst win) (snd win) l ltac:(lia) ltac:(lia)) as R4.
  pose proof (ceil_le (snd win) (snd c) l ltac:(lia) ltac:(lia)) as R5.
  revert R1 R2 R3 R4 R5. generalize (ceildivpow2 (fst c) l) (ceildivpow2 (snd c) l) (ceildivpow2 (fst win) l) (ceildivpow2 (snd win) l).
  intros A B P Q R1 R2 R3 R4 R5.
  rewrite (i32_id (B - A)), (i32_id ((B + 1) / 2 - (A + 1) / 2)) by (unfold in_i32; lia).
  rewrite (u32_id (B - A)), (u32_id ((B + 1) / 2 - (A + 1) / 2)) by lia.
  rewrite (i32_id ((B + 1) / 2 - (A + 1) / 2)) by (unfold in_i32; lia). rewrite (u32_id ((B + 1) / 2 - (A + 1) / 2)) by lia.
  rewrite (u32_id (B - A - _)) by lia. rewrite (i32_id (B - A - _)) by (unfold in_i32; lia). rewrite (u32_id (B - A - _)) by lia.
  rewrite (u32_id (A / 2)), (u32_id ((A + 1) / 2)) by lia. rewrite Z.rem_mod_nonneg by lia.
  replace (B - A - ((B + 1) / 2 - (A + 1) / 2)) with (B / 2 - A / 2) by lia.
  unfold grow, uint_subs, uint_adds. cbn [fst snd]. unfold ax. cbn [fst snd].
  replace (Z.max 0 (Z.max 0 ((P + 1) / 2 - (A + 1) / 2) - 2)) with (Z.max 0 ((P + 1) / 2 - (A + 1) / 2 - 2)) by lia.
  replace (Z.max 0 (Z.max 0 (P / 2 - A / 2) - 2)) with (Z.max 0 (P / 2 - A / 2 - 2)) by lia.
  replace (Z.min (Z.min (2 ^ 32 - 1) (Z.max 0 ((Q + 1) / 2 - (A + 1) / 2) + 2)) ((B + 1) / 2 - (A + 1) / 2)) with
    (Z.min ((B + 1) / 2 - (A + 1) / 2) ((Q + 1) / 2 - (A + 1) / 2 + 2)) by lia.
  replace (Z.min (Z.min (2 ^ 32 - 1) (Z.max 0 (Q / 2 - A / 2) + 2)) (B / 2 - A / 2)) with
    (Z.min (B / 2 - A / 2) (Q / 2 - A / 2 + 2)) by lia.
  assert (G1 : 0 <= Z.max 0 ((P + 1) / 2 - (A + 1) / 2 - 2) <= 2 ^ 30) by lia.
  assert (G2 : 0 <= Z.max 0 (P / 2 - A / 2 - 2) <= 2 ^ 30) by lia.
  assert (G3 : 0 <= Z.min ((B + 1) / 2 - (A + 1) / 2) ((Q + 1) / 2 - (A + 1) / 2 + 2) <= 2 ^ 30) by lia.
  assert (G4 : 0 <= Z.min (B / 2 - A / 2) (Q / 2 - A / 2 + 2) <= 2 ^ 30) by lia.
  f_equal. destruct (A mod 2 =? 0).
  - rewrite !(u32_id (2 * _)) by lia. rewrite !u32_id by lia. reflexivity.
  - rewrite !(u32_id (2 * _)) by lia. rewrite !u32_id by lia. reflexivity.
Qed.
