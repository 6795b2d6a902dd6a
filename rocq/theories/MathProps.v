(** C29: integer geometry helpers. *)

From Coq Require Import ZArith Lia.
From Verif Require Import Ints I32 MathModel.
Local Open Scope Z_scope.

(** [q] is the quotient of [a] by [b] rounded up. *)
Definition ceil_of (a b q : Z) : Prop := (q - 1) * b < a <= q * b.

Lemma ceil_unique : forall a b q q', 0 < b -> ceil_of a b q -> ceil_of a b q' -> q = q'.
Proof. unfold ceil_of. intros. nia. Qed.

Lemma ceil_div : forall a b, 0 < b -> ceil_of a b ((a + b - 1) / b).
Proof.
  intros a b Hb. unfold ceil_of. pose proof (Z.div_mod (a + b - 1) b ltac:(lia)).
  pose proof (Z.mod_pos_bound (a + b - 1) b Hb). nia.
Qed.

Lemma ceil_bounds : forall a b q, 0 < b -> ceil_of a b q -> (0 <= a -> 0 <= q <= a) /\ (a <= 0 -> a <= q <= 0).
Proof. unfold ceil_of. intros. split; intros; nia. Qed.

Lemma i64_id : forall x, - 2 ^ 63 <= x < 2 ^ 63 -> i64 x = x.
Proof. intros. unfold i64. rewrite Z.mod_small; lia. Qed.

Lemma pow2_bound : forall b n, 0 <= b <= n -> 0 < 2 ^ b <= 2 ^ n.
Proof. intros. split; [apply Z.pow_pos_nonneg; lia | apply Z.pow_le_mono_r; lia]. Qed.

Theorem c29_uint_ceildiv : forall a b, is_u32 a -> is_u32 b -> 0 < b ->
  exists q, uint_ceildiv a b = Some q /\ ceil_of a b q.
Proof.
  unfold is_u32. intros a b Ha Hb H0. unfold uint_ceildiv. destruct (Z.eqb_spec b 0); [lia |].
  rewrite (u64_id (a + b)), (u64_id (a + b - 1)) by lia. pose proof (ceil_div a b H0) as C.
  destruct (ceil_bounds _ _ _ H0 C) as [B _]. rewrite u32_id by lia. eauto.
Qed.

Theorem c29_uint64_ceildiv : forall a b, 0 <= a -> 0 < b -> a + b < 2 ^ 64 -> a <= (2 ^ 32 - 1) * b ->
  exists q, uint64_ceildiv_res_uint32 a b = Some q /\ ceil_of a b q.
Proof.
  intros a b Ha H0 Hs Hq. unfold uint64_ceildiv_res_uint32. destruct (Z.eqb_spec b 0); [lia |].
  rewrite (u64_id (a + b)), (u64_id (a + b - 1)) by lia. pose proof (ceil_div a b H0) as C.
  destruct (ceil_bounds _ _ _ H0 C) as [B _].
  rewrite u32_id; [eauto |]. unfold ceil_of in C. split; [lia |]. nia.
Qed.

(** Signed division: right for a >= 0, wrong in general. *)
Theorem c29_int_ceildiv : forall a b, 0 <= a < 2 ^ 31 -> 0 < b < 2 ^ 31 ->
  exists q, int_ceildiv a b = Some q /\ ceil_of a b q.
Proof.
  intros a b Ha Hb. unfold int_ceildiv. destruct (Z.eqb_spec b 0); [lia |].
  rewrite (i64_id (a + b)), (i64_id (a + b - 1)) by lia. rewrite Z.quot_div_nonneg by lia.
  pose proof (ceil_div a b ltac:(lia)) as C. destruct (ceil_bounds _ _ _ (proj1 Hb) C) as [B _].
  rewrite i32_id by (unfold in_i32; lia). eauto.
Qed.

Theorem c29_int_ceildiv_negative_refuted :
  exists q, int_ceildiv (-4) 3 = Some q /\ ~ ceil_of (-4) 3 q.
Proof. exists 0. split; [reflexivity | unfold ceil_of; lia]. Qed.

Theorem c29_uint_ceildivpow2 : forall a b, is_u32 a -> 0 <= b <= 62 -> ceil_of a (2 ^ b) (uint_ceildivpow2 a b).
Proof.
  unfold is_u32. intros a b Ha Hb. unfold uint_ceildivpow2.
  pose proof (pow2_bound b 62 Hb) as P. rewrite (Z.mod_small b 64) by lia.
  rewrite Z.shiftl_1_l, (u64_id (2 ^ b)), (u64_id (a + 2 ^ b)), (u64_id (a + 2 ^ b - 1)) by lia.
  rewrite Z.shiftr_div_pow2 by lia. pose proof (ceil_div a (2 ^ b) ltac:(lia)) as C.
  destruct (ceil_bounds _ _ _ (proj1 P) C) as [B _]. rewrite u32_id by lia. exact C.
Qed.

Theorem c29_int_ceildivpow2 : forall a b, in_i32 a -> 0 <= b <= 61 -> ceil_of a (2 ^ b) (int_ceildivpow2 a b).
Proof.
  unfold in_i32. intros a b Ha Hb. unfold int_ceildivpow2.
  pose proof (pow2_bound b 61 Hb) as P. rewrite (Z.mod_small b 64) by lia.
  rewrite Z.shiftl_1_l, (i64_id (2 ^ b)), (i64_id (a + 2 ^ b)), (i64_id (a + 2 ^ b - 1)) by lia.
  rewrite Z.shiftr_div_pow2 by lia. pose proof (ceil_div a (2 ^ b) ltac:(lia)) as C.
  destruct (ceil_bounds _ _ _ (proj1 P) C) as [B B']. rewrite i32_id by (unfold in_i32; lia). exact C.
Qed.

Theorem c29_int64_ceildivpow2 : forall a b, 0 <= b <= 61 -> - 2 ^ 62 <= a < 2 ^ 62 ->
  - 2 ^ 31 * 2 ^ b <= a <= (2 ^ 31 - 1) * 2 ^ b -> ceil_of a (2 ^ b) (int64_ceildivpow2 a b).
Proof.
  intros a b Hb Ha Hr. unfold int64_ceildivpow2.
  pose proof (pow2_bound b 61 Hb) as P. rewrite (Z.mod_small b 64) by lia.
  rewrite Z.shiftl_1_l, (i64_id (2 ^ b)), (i64_id (a + 2 ^ b)), (i64_id (a + 2 ^ b - 1)) by lia.
  rewrite Z.shiftr_div_pow2 by lia. pose proof (ceil_div a (2 ^ b) ltac:(lia)) as C.
  rewrite i32_id; [exact C |]. unfold ceil_of in C. unfold in_i32. nia.
Qed.

(** Rounding up in stages is rounding up once. *)
Theorem c29_stages : forall a b c q r, 0 < b -> 0 < c -> ceil_of a b q -> ceil_of q c r -> ceil_of a (b * c) r.
Proof. unfold ceil_of. intros. nia. Qed.

(** ... for the code: subsampling, then resolution levels; and two groups of
    levels. *)
Theorem c29_subsampled_level : forall a d l, 0 <= a < 2 ^ 31 -> 0 < d < 2 ^ 31 -> 0 <= l <= 61 ->
  exists q, int_ceildiv a d = Some q /\ ceil_of a (d * 2 ^ l) (int_ceildivpow2 q l).
Proof.
  intros a d l Ha Hd Hl. destruct (c29_int_ceildiv a d Ha Hd) as (q & E & C). exists q. split; [exact E |].
  destruct (ceil_bounds _ _ _ (proj1 Hd) C) as [B _].
  apply (c29_stages a d (2 ^ l) q); [lia | apply Z.pow_pos_nonneg; lia | exact C |].
  apply c29_int_ceildivpow2; [unfold in_i32; lia | exact Hl].
Qed.

Theorem c29_two_levels : forall a l k, in_i32 a -> 0 <= l -> 0 <= k -> l + k <= 61 ->
  int_ceildivpow2 (int_ceildivpow2 a l) k = int_ceildivpow2 a (l + k).
Proof.
  intros a l k Ha Hl Hk Hs.
  pose proof (c29_int_ceildivpow2 a l Ha ltac:(lia)) as C.
  assert (P : 0 < 2 ^ l) by (apply Z.pow_pos_nonneg; lia). assert (P' : 0 < 2 ^ k) by (apply Z.pow_pos_nonneg; lia).
  destruct (ceil_bounds _ _ _ P C) as [B B'].
  assert (Hi : in_i32 (int_ceildivpow2 a l)) by (unfold in_i32 in *; lia).
  pose proof (c29_int_ceildivpow2 _ k Hi ltac:(lia)) as D.
  apply (ceil_unique a (2 ^ (l + k))); [apply Z.pow_pos_nonneg; lia | | apply c29_int_ceildivpow2; [exact Ha | lia]].
  rewrite Z.pow_add_r by lia. apply (c29_stages a _ _ (int_ceildivpow2 a l)); assumption.
Qed.

Theorem c29_floordivpow2 : forall a b, 0 <= b <= 31 ->
  let q := int_floordivpow2 a b in q * 2 ^ b <= a < (q + 1) * 2 ^ b.
Proof.
  intros a b Hb. unfold int_floordivpow2. rewrite (Z.mod_small b 32), Z.shiftr_div_pow2 by lia.
  assert (P : 0 < 2 ^ b) by (apply Z.pow_pos_nonneg; lia).
  pose proof (Z.div_mod a (2 ^ b) ltac:(lia)). pose proof (Z.mod_pos_bound a (2 ^ b) P). cbn zeta. nia.
Qed.

Lemma floorlog2_loop_spec : forall fuel a l, 1 <= a < 2 ^ Z.of_nat fuel ->
  let r := floorlog2_loop fuel a l in l <= r /\ 2 ^ (r - l) <= a < 2 ^ (r - l + 1).
Proof.
  induction fuel; intros a l Ha; cbn [floorlog2_loop].
  - change (2 ^ Z.of_nat 0) with 1 in Ha. lia.
  - destruct (Z.ltb_spec 1 a) as [L | L].
    + rewrite Z.shiftr_div_pow2 by lia. change (2 ^ 1) with 2.
      replace (Z.of_nat (S fuel)) with (Z.of_nat fuel + 1) in Ha by lia. rewrite Z.pow_add_r in Ha by lia.
      pose proof (Z.div_mod a 2 ltac:(lia)). pose proof (Z.mod_pos_bound a 2 ltac:(lia)).
      specialize (IHfuel (a / 2) (l + 1) ltac:(lia)). cbn zeta in *.
      set (r := floorlog2_loop fuel (a / 2) (l + 1)) in *.
      replace (r - l) with (r - (l + 1) + 1) by lia. rewrite !Z.pow_add_r in * by lia. lia.
    + cbn zeta. replace (l - l) with 0 by lia. change (2 ^ 0) with 1. change (2 ^ (0 + 1)) with 2. lia.
Qed.

Theorem c29_floorlog2 : forall a, 1 <= a < 2 ^ 32 -> 2 ^ floorlog2 a <= a < 2 ^ (floorlog2 a + 1).
Proof.
  intros a Ha. destruct (floorlog2_loop_spec 32 a 0 Ha) as [L H]. rewrite Z.sub_0_r in H. exact H.
Qed.

Theorem c29_saturating : forall a b, is_u32 a -> is_u32 b ->
  is_u32 (uint_adds a b) /\ is_u32 (uint_subs a b) /\
  (a + b < 2 ^ 32 -> uint_adds a b = a + b) /\ (b <= a -> uint_subs a b = a - b).
Proof. unfold is_u32, uint_adds, uint_subs. intros. lia. Qed.

(** Clamping gives the element of the range nearest to [a]; an empty range is
    a panic. *)
Theorem c29_clamp : forall a lo hi,
  (hi < lo <-> int_clamp a lo hi = None) /\
  forall r, int_clamp a lo hi = Some r ->
    lo <= r <= hi /\ forall t, lo <= t <= hi -> Z.abs (a - r) <= Z.abs (a - t).
Proof.
  intros a lo hi. unfold int_clamp. destruct (Z.leb_spec lo hi) as [H | H].
  - split; [split; [lia | discriminate] |]. intros r E. injection E as <-. split; intros; lia.
  - split; [split; [reflexivity | intros _; exact H] | discriminate].
Qed.

(** The differences and sums are those of two's complement words: exact
    whenever the result fits; [abs] is exact but for the least number. *)
Theorem c29_signed : forall a b, in_i32 a -> in_i32 b ->
  in_i32 (int_add_no_overflow a b) /\ in_i32 (int_sub_no_overflow a b) /\
  (in_i32 (a + b) -> int_add_no_overflow a b = a + b) /\ (in_i32 (a - b) -> int_sub_no_overflow a b = a - b) /\
  (a <> - 2 ^ 31 -> int_abs a = Z.abs a).
Proof.
  intros a b Ha Hb. unfold int_add_no_overflow, int_sub_no_overflow, int_abs.
  split; [apply i32_range |]. split; [apply i32_range |].
  repeat split; intros; apply i32_id; unfold in_i32 in *; lia.
Qed.

Example c29_clamp_example :
  int_clamp 7 (-3) 5 = Some 5 /\ int_clamp (-7) (-3) 5 = Some (-3) /\ int_clamp 2 (-3) 5 = Some 2 /\ int_clamp 2 5 (-3) = None /\
  int_add_no_overflow (2 ^ 31 - 1) 1 = - 2 ^ 31 /\ int_sub_no_overflow 3 5 = -2.
Proof. repeat split. Qed.

Example c29_example :
  uint_ceildiv 10 3 = Some 4 /\ uint_ceildiv (2 ^ 32 - 1) 1 = Some (2 ^ 32 - 1) /\ uint_ceildiv 1 0 = None /\
  int_ceildivpow2 (-5) 1 = -2 /\ int_ceildivpow2 (2 ^ 31 - 1) 1 = 2 ^ 30 /\ uint_ceildivpow2 (2 ^ 32 - 1) 32 = 1 /\
  floorlog2 0 = 0 /\ floorlog2 1 = 0 /\ floorlog2 255 = 7 /\ floorlog2 256 = 8 /\ int_abs (- 2 ^ 31) = - 2 ^ 31.
Proof. repeat split. Qed.

Print Assumptions c29_uint_ceildiv.
Print Assumptions c29_uint64_ceildiv.
Print Assumptions c29_int_ceildiv.
Print Assumptions c29_int_ceildiv_negative_refuted.
Print Assumptions c29_uint_ceildivpow2.
Print Assumptions c29_int_ceildivpow2.
Print Assumptions c29_int64_ceildivpow2.
Print Assumptions c29_stages.
Print Assumptions c29_subsampled_level.
Print Assumptions c29_two_levels.
Print Assumptions c29_floordivpow2.
Print Assumptions c29_floorlog2.
Print Assumptions c29_saturating.
Print Assumptions c29_clamp.
Print Assumptions c29_signed.
