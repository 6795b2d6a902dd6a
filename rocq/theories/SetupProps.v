(** C84: what the set-up of the encoder accepts is written and read back. *)

From Coq Require Import ZArith List Bool Lia Znumtheory.
From Verif Require Import Ints I32 Mem CioModel CioProps MathModel MathProps HdrModel HdrSpec HdrBytes HdrSegs HdrRun HdrMain HdrProps SetupModel.
Import ListNotations.
Local Open Scope Z_scope.

(** ** What the parameters say *)

(** Number of resolutions, and code-blocks as the standard allows them (A-18):
    powers of two from 4 to 1024, at most 4096 samples. *)
Definition blocks_ok (p : params) : Prop :=
  1 <= q_numres p <= 33 /\
  exists a b, q_cblkw p = 2 ^ a /\ q_cblkh p = 2 ^ b /\ 2 <= a <= 10 /\ 2 <= b <= 10 /\ a + b <= 12.

(** The size of the precincts asked for at resolution [r]: sizes are given from
    the highest resolution downwards, and the last one is halved from one
    resolution to the next. *)
Definition asked (p : params) (sizes : mem) (r : Z) : Z :=
  let k := q_numres p - 1 - r in
  if k <? q_res_spec p then sizes k else sizes (q_res_spec p - 1) / 2 ^ (k - (q_res_spec p - 1)).
(** An exponent for that size: the largest power of two in it, or 2 for none. *)
Definition stands_for (e size : Z) : Prop := if size <? 1 then e = 1 else 2 ^ e <= size < 2 ^ (e + 1).

(** Gain of a band in the reversible transform (Table E.1). *)
Definition gain_of (b : Z) : Z := if b =? 0 then 0 else match (b - 1) mod 3 with 0 | 1 => 1 | _ => 2 end.

(** The first three components have one sampling. *)
Definition one_sampling (cs : list comp) : Prop :=
  forall i, (i < 3)%nat -> c_dx (nth i cs (mkComp 0 0 0 0)) = c_dx (nth 0 cs (mkComp 0 0 0 0)) /\
                           c_dy (nth i cs (mkComp 0 0 0 0)) = c_dy (nth 0 cs (mkComp 0 0 0 0)).

(** What the set-up does not check. *)
Definition sizes_ok (p : params) : Prop :=
  Z.testbit (q_csty p) 0 = true -> forall sizes, sizes = q_prcw p \/ sizes = q_prch p ->
  (forall k, 0 <= k -> sizes k < 2 ^ 16) /\ forall r, 0 < r < q_numres p -> asked p sizes r <> 1.
Definition area_ok (im : image) (p : params) : Prop :=
  0 <= q_tx0 p <= i_x0 im /\ i_x0 im < i_x1 im < 2 ^ 32 /\ 0 <= q_ty0 p <= i_y0 im /\ i_y0 im < i_y1 im < 2 ^ 32 /\
  (q_tile_on p = true -> 0 <= q_tdx p /\ i_x0 im < q_tx0 p + q_tdx p /\ 0 <= q_tdy p /\ i_y0 im < q_ty0 p + q_tdy p).
(** The step of exponent [l] and mantissa [m] is the one next below [v]. *)
Definition step_near (v l m : Z) : Prop := 0 <= l /\ 0 <= m < 2 ^ 11 /\ 2 ^ l * (2 ^ 11 + m) <= v * 2 ^ 11 < 2 ^ l * (2 ^ 11 + m + 1).
Definition steps_ok (fs : Z -> Z -> Z) (p : params) (c : comp) : Prop :=
  if q_irreversible p
  then forall l o, 0 <= l < q_numres p -> 0 <= o <= 3 -> 0 <= c_prec c + 13 - floorlog2 (fs l o) < 32
  else c_prec c + (if 1 <? q_numres p then 2 else 0) < 32.
Definition asked_ok (fs : Z -> Z -> Z) (im : image) (p : params) : Prop :=
  area_ok im p /\ 1 <= Z.of_nat (length (i_comps im)) <= 16384 /\ Forall comp_ok (i_comps im) /\
  Forall (steps_ok fs p) (i_comps im) /\
  0 <= q_csty p <= 7 /\ 0 <= q_prg p <= 4 /\ 0 <= q_mct p <= 1 /\ 0 <= q_mode p <= 127 /\ 0 <= q_roi_shift p <= 255 /\
  sizes_ok p /\ Z.of_nat (length (q_comment p)) <= 65531.

(** All the integers are 32-bit ones. *)
Definition typed (im : image) (p : params) : Prop :=
  in_i32 (q_numres p) /\ in_i32 (q_cblkw p) /\ in_i32 (q_cblkh p) /\ in_i32 (q_res_spec p) /\ in_i32 (q_tdx p) /\ in_i32 (q_tdy p) /\
  in_i32 (q_tx0 p) /\ in_i32 (q_ty0 p) /\ forall k, in_i32 (q_prcw p k) /\ in_i32 (q_prch p k).

(** ** Powers of two *)

Lemma floorlog2_pow : forall a, 0 <= a <= 30 -> floorlog2 (2 ^ a) = a.
Proof.
  intros a Ha. assert (C : a = 0 \/ a = 1 \/ a = 2 \/ a = 3 \/ a = 4 \/ a = 5 \/ a = 6 \/ a = 7 \/ a = 8 \/ a = 9 \/ a = 10 \/ a = 11 \/ a = 12 \/
    a = 13 \/ a = 14 \/ a = 15 \/ a = 16 \/ a = 17 \/ a = 18 \/ a = 19 \/ a = 20 \/ a = 21 \/ a = 22 \/ a = 23 \/ a = 24 \/ a = 25 \/ a = 26 \/
    a = 27 \/ a = 28 \/ a = 29 \/ a = 30) by lia.
  repeat (destruct C as [-> | C]; [reflexivity |]). subst a. reflexivity.
Qed.

Lemma floorlog2_range : forall a, 1 <= a < 2 ^ 32 -> 0 <= floorlog2 a < 32.
Proof.
  intros a Ha. destruct (floorlog2_loop_spec 32 a 0 Ha) as [L _]. fold (floorlog2 a) in L. pose proof (c29_floorlog2 a Ha) as [P _].
  split; [exact L |]. apply (Z.pow_lt_mono_r_iff 2); lia.
Qed.

Lemma shift1 : forall n, 0 <= n <= 30 -> i32 (Z.shiftl 1 (n mod 32)) = 2 ^ n.
Proof.
  intros n Hn. rewrite Z.mod_small by lia. rewrite Z.shiftl_1_l. apply i32_id. unfold in_i32.
  assert (2 ^ n <= 2 ^ 30) by (apply Z.pow_le_mono_r; lia). assert (0 < 2 ^ n) by (apply Z.pow_pos_nonneg; lia). lia.
Qed.

Lemma block_side : forall x, 4 <= x <= 1024 -> x = i32 (Z.shiftl 1 (floorlog2 x mod 32)) -> x = 2 ^ floorlog2 x /\ 2 <= floorlog2 x <= 10.
Proof.
  intros x Hx E. pose proof (c29_floorlog2 x ltac:(lia)) as [P Q]. pose proof (floorlog2_range x ltac:(lia)) as R.
  assert (floorlog2 x < 11) by (apply (Z.pow_lt_mono_r_iff 2); [lia | lia |]; change (2 ^ 11) with 2048; lia).
  assert (2 < floorlog2 x + 1) by (apply (Z.pow_lt_mono_r_iff 2); [lia | lia |]; change (2 ^ 2) with 4; lia).
  rewrite shift1 in E by lia. split; [exact E | lia].
Qed.

(** ** The checks *)

(** The set-up refuses exactly the block sizes and resolutions that the standard
    does not know. *)
Theorem c84_blocks : forall p, in_i32 (q_numres p) -> in_i32 (q_cblkw p) -> in_i32 (q_cblkh p) -> check_blocks p = true <-> blocks_ok p.
Proof.
  intros p T1 T2 T3. unfold check_blocks, blocks_ok. split.
  - intros H. rewrite !andb_true_iff, !negb_true_iff, !orb_false_iff in H. destruct H as (((((H1 & H2) & H3) & H4) & H5) & H6).
    destruct H1 as [A1 A2]. destruct H2 as [B1 B2]. destruct H3 as [C1 C2]. apply Z.leb_gt in A1. apply Z.ltb_ge in A2, B1, B2, C1, C2, H4.
    apply Z.eqb_eq in H5, H6. split; [lia |]. destruct (block_side _ (conj B1 B2) H5) as [E1 L1]. destruct (block_side _ (conj C1 C2) H6) as [E2 L2].
    exists (floorlog2 (q_cblkw p)), (floorlog2 (q_cblkh p)). repeat (split; [assumption |]).
    rewrite i32_id in H4 by (unfold in_i32; nia). rewrite E1, E2, <- Z.pow_add_r in H4 by lia.
    assert (floorlog2 (q_cblkw p) + floorlog2 (q_cblkh p) < 13); [| lia].
    apply (Z.pow_lt_mono_r_iff 2); [lia | lia |]. change (2 ^ 13) with 8192. lia.
  - intros (N & a & b & Ea & Eb & La & Lb & Ls). rewrite !andb_true_iff, !negb_true_iff, !orb_false_iff.
    assert (Pa : 2 ^ 2 <= 2 ^ a <= 2 ^ 10) by (split; apply Z.pow_le_mono_r; lia).
    assert (Pb : 2 ^ 2 <= 2 ^ b <= 2 ^ 10) by (split; apply Z.pow_le_mono_r; lia).
    assert (Ps : 2 ^ a * 2 ^ b <= 2 ^ 12) by (rewrite <- Z.pow_add_r by lia; apply Z.pow_le_mono_r; lia).
    change (2 ^ 2) with 4 in *. change (2 ^ 10) with 1024 in *. change (2 ^ 12) with 4096 in *.
    rewrite Ea, Eb, !floorlog2_pow by lia. rewrite !shift1 by lia. rewrite i32_id by (unfold in_i32; nia). rewrite !Z.eqb_refl.
    rewrite Z.leb_gt, !Z.ltb_ge. repeat split; lia.
Qed.

(** ** Precincts *)

Lemma prc_exp_spec : forall size, size < 2 ^ 16 -> stands_for (prc_exp size) size /\ 0 <= prc_exp size <= 15 /\ (size <> 1 -> prc_exp size <> 0).
Proof.
  intros size H. unfold stands_for, prc_exp. destruct (Z.ltb_spec size 1) as [L | L]; [repeat split; lia |].
  pose proof (c29_floorlog2 size ltac:(lia)) as [P Q]. pose proof (floorlog2_range size ltac:(lia)) as R.
  assert (floorlog2 size < 16) by (apply (Z.pow_lt_mono_r_iff 2); lia).
  rewrite u32_id by lia. repeat split; try lia. intros N Z0. rewrite Z0 in Q. change (2 ^ (0 + 1)) with 2 in Q. lia.
Qed.

Lemma prc_of_spec : forall p sizes r, 1 <= q_numres p <= 32 -> 0 < q_res_spec p -> 0 <= r < q_numres p ->
  (forall k, 0 <= k -> sizes k < 2 ^ 16) ->
  stands_for (prc_of p sizes r) (asked p sizes r) /\ 0 <= prc_of p sizes r <= 15 /\ (asked p sizes r <> 1 -> prc_of p sizes r <> 0).
Proof.
  intros p sizes r Hn Hs Hr Hk. unfold prc_of, asked. set (k := q_numres p - 1 - r). destruct (Z.ltb_spec k (q_res_spec p)) as [L | L].
  - apply prc_exp_spec. apply Hk. unfold k. lia.
  - rewrite Z.mod_small by (unfold k in *; lia). rewrite Z.shiftr_div_pow2 by lia. apply prc_exp_spec.
    assert (B := Hk (q_res_spec p - 1) ltac:(lia)).
    assert (0 < 2 ^ (k - (q_res_spec p - 1))) by (apply Z.pow_pos_nonneg; lia).
    destruct (Z_lt_le_dec (sizes (q_res_spec p - 1)) 0).
    + apply Z.lt_trans with 0; [apply Z.div_lt_upper_bound; lia | lia].
    + apply Z.div_lt_upper_bound; [lia |]. nia.
Qed.

(** ** Components *)

Lemma nth_tccps : forall fs p cs i c, (c < length cs)%nat ->
  nth c (tccps fs p i cs) tccp0 = tccp_of fs p (i + c) (nth c cs (mkComp 0 0 0 0)).
Proof.
  intros fs p cs. induction cs as [| x cs IH]; intros i c H; [cbn in H; lia |]. destruct c; cbn [tccps nth].
  - rewrite Nat.add_0_r. reflexivity.
  - rewrite IH by (cbn in H; lia). f_equal. lia.
Qed.
Lemma length_tccps : forall fs p cs i, length (tccps fs p i cs) = length cs.
Proof. intros fs p cs. induction cs; intros i; cbn [tccps length]; [reflexivity |]. rewrite IHcs. reflexivity. Qed.

Lemma land1 : forall x, (Z.land x 1 =? 0) = negb (Z.testbit x 0).
Proof.
  intros x. change (Z.land x 1) with (Z.land x (Z.ones 1)). rewrite Z.land_ones by lia. change (2 ^ 1) with 2.
  rewrite Zmod_odd, Z.bit0_odd. destruct (Z.odd x); reflexivity.
Qed.
Lemma land1_bit : forall x, Z.testbit (Z.land x 1) 0 = Z.testbit x 0.
Proof. intros x. rewrite Z.land_spec. change (Z.testbit 1 0) with true. apply andb_true_r. Qed.
Lemma land1_range : forall x, 0 <= Z.land x 1 <= 1.
Proof.
  intros x. change (Z.land x 1) with (Z.land x (Z.ones 1)). rewrite Z.land_ones by lia. change (2 ^ 1) with 2.
  pose proof (Z.mod_pos_bound x 2). lia.
Qed.

(** ** Step sizes *)

(** [l] and [m] are the eleven bits after the leading one of [v]. *)
Lemma leading : forall v l, 0 <= l <= 30 -> 2 ^ l <= v < 2 ^ (l + 1) ->
  step_near v l (Z.land (if 11 - l <? 0 then Z.shiftr v (- (11 - l)) else i32 (Z.shiftl v (11 - l))) 2047).
Proof.
  intros v l Hl Hv. set (w := if 11 - l <? 0 then _ else _). rewrite Z.pow_add_r in Hv by lia. change (2 ^ 1) with 2 in Hv.
  assert (P : 0 < 2 ^ l) by (apply Z.pow_pos_nonneg; lia).
  assert (W : 2 ^ l * w <= v * 2 ^ 11 < 2 ^ l * (w + 1)).
  { unfold w. destruct (Z.ltb_spec (11 - l) 0) as [L | L].
    - rewrite Z.shiftr_div_pow2 by lia. replace (2 ^ l) with (2 ^ (l - 11) * 2 ^ 11) by (rewrite <- Z.pow_add_r by lia; f_equal; lia).
      replace (- (11 - l)) with (l - 11) by lia. assert (Q : 0 < 2 ^ (l - 11)) by (apply Z.pow_pos_nonneg; lia).
      pose proof (Z.mul_div_le v (2 ^ (l - 11)) Q). pose proof (Z.mul_succ_div_gt v (2 ^ (l - 11)) Q). change (2 ^ 11) with 2048. nia.
    - rewrite Z.shiftl_mul_pow2 by lia. assert (E : 2 ^ l * 2 ^ (11 - l) = 2048) by (rewrite <- Z.pow_add_r by lia; replace (l + (11 - l)) with 11 by lia; reflexivity).
      assert (Q : 0 < 2 ^ (11 - l)) by (apply Z.pow_pos_nonneg; lia).
      rewrite i32_id by (unfold in_i32; nia). change (2 ^ 11) with 2048. nia. }
  change (2 ^ 11) with 2048 in W. assert (R : 2048 <= w < 4096) by nia.
  change 2047 with (Z.ones 11). rewrite Z.land_ones by lia. change (2 ^ 11) with 2048.
  assert (M : w mod 2048 = w - 2048) by (symmetry; apply (Z.mod_unique _ _ 1); lia).
  rewrite M. unfold step_near. change (2 ^ 11) with 2048. split; [lia |]. split; [lia |]. replace (2048 + (w - 2048)) with w by lia. replace (2048 + (w - 2048) + 1) with (w + 1) by lia. exact W.
Qed.

Lemma stepsize_irreversible : forall fs n prec b, 1 <= prec <= 31 -> 1 <= n <= 33 -> 0 <= b < 3 * n - 2 ->
  let v := fs (n - 1 - (if b =? 0 then 0 else (b - 1) / 3 + 1)) (if b =? 0 then 0 else (b - 1) mod 3 + 1) in
  1 <= v < 2 ^ 31 -> exists l, stepsize fs true n prec b = (prec + 13 - l, snd (stepsize fs true n prec b)) /\ step_near v l (snd (stepsize fs true n prec b)).
Proof.
  intros fs n prec b Hp Hn Hb v Hv.
  assert (Ev : fs (level_of n b) (orient_of b) = v).
  { unfold v, level_of, orient_of. destruct (Z.eqb_spec b 0); [rewrite u32_id by lia; reflexivity |].
    pose proof (Z.mod_pos_bound (b - 1) 3 ltac:(lia)). assert ((b - 1) / 3 < n - 1) by (apply Z.div_lt_upper_bound; lia).
    assert (0 <= (b - 1) / 3) by (apply Z.div_pos; lia). rewrite !u32_id by lia. reflexivity. }
  unfold stepsize. rewrite Ev. exists (floorlog2 v). pose proof (floorlog2_range v ltac:(lia)) as R. pose proof (c29_floorlog2 v ltac:(lia)) as L.
  assert (floorlog2 v < 31) by (apply (Z.pow_lt_mono_r_iff 2); lia).
  unfold encode_stepsize. cbn [fst snd]. rewrite Z.add_0_r, (i32_id prec) by (unfold in_i32; lia). split.
  - f_equal. rewrite i32_id by (unfold in_i32; lia). lia.
  - apply leading; [lia | exact L].
Qed.

Lemma stepsize_reversible : forall fs n prec b, 1 <= prec <= 31 -> 0 <= b -> stepsize fs false n prec b = (prec + gain_of b, 0).
Proof.
  intros fs n prec b Hp Hb. unfold stepsize. set (g := if orient_of b =? 0 then _ else _).
  assert (G : g = gain_of b).
  { unfold g, orient_of, gain_of. destruct (Z.eqb_spec b 0); [reflexivity |]. pose proof (Z.mod_pos_bound (b - 1) 3 ltac:(lia)).
    rewrite u32_id by lia. assert (C : (b - 1) mod 3 = 0 \/ (b - 1) mod 3 = 1 \/ (b - 1) mod 3 = 2) by lia.
    destruct C as [-> | [-> | ->]]; reflexivity. }
  rewrite G. assert (R : 0 <= gain_of b <= 2) by (unfold gain_of; destruct (b =? 0); [lia |]; destruct ((b - 1) mod 3) as [| [| |] |]; lia).
  unfold encode_stepsize. change (floorlog2 8192) with 13. change (Z.land (if 11 - 13 <? 0 then Z.shiftr 8192 (- (11 - 13)) else i32 (Z.shiftl 8192 (11 - 13))) 2047) with 0.
  rewrite (i32_id (prec + gain_of b)) by (unfold in_i32; lia). replace (prec + gain_of b - (13 - 13)) with (prec + gain_of b) by lia.
  rewrite i32_id by (unfold in_i32; lia). reflexivity.
Qed.

Lemma stepsize_range : forall fs p c b, 1 <= q_numres p <= 32 -> 1 <= c_prec c <= 31 -> steps_ok fs p c -> 0 <= b < 3 * q_numres p - 2 ->
  0 <= fst (stepsize fs (q_irreversible p) (q_numres p) (c_prec c) b) < 32 /\
  0 <= snd (stepsize fs (q_irreversible p) (q_numres p) (c_prec c) b) < 2048.
Proof.
  intros fs p c b Hn Hp Hs Hb. unfold steps_ok in Hs. destruct (q_irreversible p).
  - unfold stepsize. assert (Lv : 0 <= level_of (q_numres p) b < q_numres p).
    { unfold level_of. destruct (Z.eqb_spec b 0); [rewrite u32_id by lia; lia |].
      assert (0 <= (b - 1) / 3 <= q_numres p - 2).
      { split; [apply Z.div_pos; lia |]. apply Z.lt_succ_r. apply Z.div_lt_upper_bound; lia. }
      rewrite u32_id by lia. lia. }
    assert (Or : 0 <= orient_of b <= 3).
    { unfold orient_of. destruct (b =? 0); [lia |]. pose proof (Z.mod_pos_bound (b - 1) 3 ltac:(lia)). rewrite u32_id by lia. lia. }
    specialize (Hs _ _ Lv Or). set (s := fs (level_of (q_numres p) b) (orient_of b)) in *. unfold encode_stepsize. cbn [fst snd].
    rewrite Z.add_0_r. rewrite (i32_id (c_prec c)) by (unfold in_i32; lia). split.
    + replace (c_prec c - (floorlog2 s - 13)) with (c_prec c + 13 - floorlog2 s) by lia. rewrite i32_id by (unfold in_i32; lia). exact Hs.
    + change 2047 with (Z.ones 11). rewrite Z.land_ones by lia. apply Z.mod_pos_bound. lia.
  - rewrite stepsize_reversible by lia. cbn [fst snd]. split; [| lia].
    assert (R : 0 <= gain_of b <= 2) by (unfold gain_of; destruct (b =? 0); [lia |]; destruct ((b - 1) mod 3) as [| [| |] |]; lia).
    destruct (Z.ltb_spec 1 (q_numres p)); [lia |]. assert (b = 0) by lia. subst b. cbn [gain_of Z.eqb]. unfold gain_of. cbn [Z.eqb]. lia.
Qed.

Lemma in_bands_true : forall n b, 1 <= n <= 33 -> 0 <= b < 3 * n - 2 -> in_bands n b = true.
Proof.
  intros n b Hn Hb. unfold in_bands. rewrite (u32_id (3 * n)) by lia. rewrite u32_id by lia. apply andb_true_intro. rewrite Z.leb_le, Z.ltb_lt. lia.
Qed.

(** ** From the parameters to the header *)

Lemma tiles_spec : forall im p dx dy, typed im p -> area_ok im p -> tiles im p = Ok (dx, dy) ->
  axis_ok (i_x0 im) (i_x1 im) (u32 (q_tx0 p)) dx /\ axis_ok (i_y0 im) (i_y1 im) (u32 (q_ty0 p)) dy /\
  (exists tw th, ceil_of (i_x1 im - u32 (q_tx0 p)) dx tw /\ ceil_of (i_y1 im - u32 (q_ty0 p)) dy th /\ tw * th <= 65535) /\
  (if q_tile_on p then dx = q_tdx p /\ dy = q_tdy p else dx = i_x1 im - q_tx0 p /\ dy = i_y1 im - q_ty0 p).
Proof.
  intros im p dx dy (_ & _ & _ & _ & T1 & T2 & T3 & T4 & _) (A1 & A2 & A3 & A4 & A5) H. unfold in_i32 in *.
  assert (Ex : u32 (q_tx0 p) = q_tx0 p) by (apply u32_id; lia). assert (Ey : u32 (q_ty0 p) = q_ty0 p) by (apply u32_id; lia).
  unfold tiles in H. rewrite Ex, Ey in *. rewrite !(u32_id (i_x1 im - q_tx0 p)), !(u32_id (i_y1 im - q_ty0 p)) in H by lia.
  destruct (q_tile_on p).
  - destruct (A5 eq_refl) as (B1 & B2 & B3 & B4). rewrite !(u32_id (q_tdx p)), !(u32_id (q_tdy p)) in H by lia.
    destruct (Z.eqb_spec (q_tdx p) 0); [discriminate |]. destruct (Z.eqb_spec (q_tdy p) 0); [discriminate |].
    destruct (c29_uint_ceildiv (i_x1 im - q_tx0 p) (q_tdx p)) as (tw & Ew & Cw); [unfold is_u32; lia .. |].
    destruct (c29_uint_ceildiv (i_y1 im - q_ty0 p) (q_tdy p)) as (th & Eh & Ch); [unfold is_u32; lia .. |].
    rewrite Ew, Eh in H. destruct (Z.eqb_spec th 0); [discriminate |]. destruct (Z.ltb_spec (65535 / th) tw) as [L | L]; [discriminate |].
    injection H as <- <-. unfold axis_ok. split; [lia |]. split; [lia |]. split; [| auto]. exists tw, th. split; [exact Cw |]. split; [exact Ch |].
    assert (0 < th) by (unfold ceil_of in Ch; nia). pose proof (Z.mul_div_le 65535 th ltac:(lia)). nia.
  - injection H as <- <-. unfold axis_ok. split; [lia |]. split; [lia |]. split; [| auto]. exists 1, 1. unfold ceil_of. lia.
Qed.

Lemma mct_range : forall im p, 0 <= q_mct p <= 1 -> 0 <= mct_of im p <= 1.
Proof.
  intros im p H. unfold mct_of. rewrite u32_id by lia. destruct (i_comps im) as [| a [| b [| c l]]]; try lia.
  destruct (_ && _); lia.
Qed.

Lemma mct_spec : forall im p, 0 <= q_mct p <= 1 ->
  (mct_of im p = 1 <-> q_mct p = 1 /\ ((length (i_comps im) < 3)%nat \/ one_sampling (i_comps im))).
Proof.
  intros im p H. unfold mct_of. rewrite u32_id by lia. destruct (i_comps im) as [| a [| b [| c l]]]; cbn [length];
    [split; [intros E; split; [exact E | left; lia] | tauto] .. |].
  destruct (Z.eqb_spec (q_mct p) 1) as [E | E]; cbn [andb]; [| split; [intros X; lia | intros [X _]; contradiction]].
  destruct (Z.eqb_spec (c_dx a) (c_dx b)) as [E1 | E1]; destruct (Z.eqb_spec (c_dx a) (c_dx c)) as [E2 | E2];
    destruct (Z.eqb_spec (c_dy a) (c_dy b)) as [E3 | E3]; destruct (Z.eqb_spec (c_dy a) (c_dy c)) as [E4 | E4]; cbn [negb orb];
    try (split; [intros X; lia | intros [_ [X | X]]; [lia | exfalso]; pose proof (X 1%nat ltac:(lia)) as [X1 X2]; pose proof (X 2%nat ltac:(lia)) as [X3 X4];
         cbn [nth] in *; congruence]).
  split; [| intros [X _]; exact X]. intros X. split; [exact X |]. right. intros i Hi.
  assert (C : i = 0%nat \/ i = 1%nat \/ i = 2%nat) by lia. destruct C as [-> | [-> | ->]]; cbn [nth]; split; congruence.
Qed.

Lemma setup_inv : forall fs im p e, setup fs im p = Ok e -> exists layers dx dy,
  check_blocks p = true /\ check_layers p = Some layers /\ tiles im p = Ok (dx, dy) /\
  (Z.testbit (q_csty p) 0 = true -> 0 < q_res_spec p) /\
  e = mkEnc (mkSiz 0 (i_x1 im) (i_y1 im) (i_x0 im) (i_y0 im) dx dy (u32 (q_tx0 p)) (u32 (q_ty0 p)) (i_comps im))
        (mkTcp (u32 (q_csty p)) (q_prg p) layers (mct_of im p) (tccps fs p 0 (i_comps im)) []) None (Some (q_comment p)).
Proof.
  intros fs im p e H. unfold setup in H. destruct (check_blocks p); [| discriminate]. cbn [negb] in H.
  destruct (check_layers p) as [layers |]; [| discriminate]. destruct (tiles im p) as [[dx dy] | |]; try discriminate.
  rewrite land1, negb_involutive in H. destruct (Z.testbit (q_csty p) 0 && (q_res_spec p <=? 0)) eqn:B; [discriminate |].
  exists layers, dx, dy. repeat (split; [reflexivity |]). split; [| congruence].
  intros T. rewrite T in B. cbn [andb] in B. apply Z.leb_gt in B. exact B.
Qed.

Lemma layers_spec : forall p n, check_layers p = Some n -> n = (if q_layers p =? 0 then 1 else q_layers p) /\ 1 <= n <= 100.
Proof.
  intros p n H. unfold check_layers in H. set (k := if q_layers p =? 0 then 1 else q_layers p) in *.
  destruct ((1 <=? k) && (k <=? 100)) eqn:E; [| discriminate]. injection H as <-. rewrite andb_true_iff, !Z.leb_le in E. auto.
Qed.

Lemma component_ok : forall fs im p i c, typed im p -> asked_ok fs im p -> check_blocks p = true -> q_numres p <= 32 ->
  (Z.testbit (q_csty p) 0 = true -> 0 < q_res_spec p) -> comp_ok c -> steps_ok fs p c ->
  let t := tccp_of fs p i c in
  style_ok 0 t /\ default_prc t /\ quant_ok t /\ 0 <= csty t < 256 /\ 0 <= roishift t <= 255 /\
  Z.testbit (csty t) 0 = Z.testbit (u32 (q_csty p)) 0.
Proof.
  intros fs im p i c T A B N R C S t. destruct T as (T1 & T2 & T3 & T4 & _). apply c84_blocks in B; [| assumption ..].
  destruct B as (Bn & a & b & Ba & Bb & La & Lb & Ls).
  destruct A as (_ & _ & _ & _ & A1 & _ & _ & A2 & A3 & A4 & _). destruct C as (C1 & _).
  assert (Fa : floorlog2 (q_cblkw p) = a) by (rewrite Ba; apply floorlog2_pow; lia).
  assert (Fb : floorlog2 (q_cblkh p) = b) by (rewrite Bb; apply floorlog2_pow; lia).
  split; [| split; [| split; [| split; [| split]]]]; unfold t, tccp_of; cbn [csty roishift].
  - unfold style_ok. cbn [numres cblkw cblkh cblksty qmfbid prcw prch]. rewrite Fa, Fb, (u32_id (q_mode p)) by lia.
    repeat (split; [destruct (q_irreversible p); lia |]). intros r Hr. unfold prcs.
    replace ((0 <=? r) && (r <? q_numres p)) with true by (symmetry; apply andb_true_intro; rewrite Z.leb_le, Z.ltb_lt; lia).
    rewrite land1. destruct (Z.testbit (q_csty p) 0) eqn:Bt; cbn [negb]; [| lia].
    destruct (A4 Bt (q_prcw p) (or_introl eq_refl)) as [W1 W2]. destruct (A4 Bt (q_prch p) (or_intror eq_refl)) as [H1 H2].
    destruct (prc_of_spec p (q_prcw p) r ltac:(lia) (R eq_refl) Hr W1) as (_ & P1 & P2).
    destruct (prc_of_spec p (q_prch p) r ltac:(lia) (R eq_refl) Hr H1) as (_ & Q1 & Q2).
    split; [exact P1 |]. split; [exact Q1 |]. intros Nr. split; [apply P2, W2; lia | apply Q2, H2; lia].
  - unfold default_prc. cbn [csty numres prcw prch]. rewrite land1_bit. intros Bt r Hr. unfold prcs.
    replace ((0 <=? r) && (r <? q_numres p)) with true by (symmetry; apply andb_true_intro; rewrite Z.leb_le, Z.ltb_lt; lia).
    rewrite land1, Bt. auto.
  - unfold quant_ok, bands. cbn [qntsty numgbits numres expn mant]. split; [destruct (q_irreversible p); lia |]. split; [lia |].
    replace ((if q_irreversible p then 2 else 0) =? 1) with false by (destruct (q_irreversible p); reflexivity).
    intros k Hk. rewrite in_bands_true by lia. apply stepsize_range; try assumption; lia.
  - pose proof (land1_range (q_csty p)). lia.
  - destruct (Z.of_nat i =? q_roi_comp p); lia.
  - rewrite land1_bit, u32_id by lia. reflexivity.
Qed.

Lemma setup_enc_ok : forall fs ihdr im p e, typed im p -> asked_ok fs im p -> setup fs im p = Ok e -> validate e = true ->
  fits ihdr (e_siz e) -> enc_ok ihdr 0 e /\ q_numres p <= 32.
Proof.
  intros fs ihdr im p e T A H V F. destruct (setup_inv _ _ _ _ H) as (layers & dx & dy & E1 & E2 & E3 & E4 & E5).
  assert (A' := A). destruct A' as (A1 & A2 & A3 & A4 & A5 & A6 & A7 & A8 & A9 & A10 & A11).
  destruct (layers_spec _ _ E2) as [L1 L2]. destruct (tiles_spec _ _ _ _ T A1 E3) as (G1 & G2 & G3 & _).
  assert (N0 : forall c, 0 <= c < Z.of_nat (length (i_comps im)) ->
    at_ (tccps fs p 0 (i_comps im)) c = tccp_of fs p (Z.to_nat c) (nth (Z.to_nat c) (i_comps im) (mkComp 0 0 0 0))).
  { intros c Hc. unfold at_. rewrite nth_tccps by lia. reflexivity. }
  assert (N : q_numres p <= 32).
  { subst e. unfold validate in V. cbn [e_tcp e_siz t_comps] in V. rewrite N0 in V by lia. cbn [numres tccp_of] in V.
    rewrite !andb_true_iff, negb_true_iff, orb_false_iff in V. destruct V as [[[_ V] _] _]. apply Z.ltb_ge in V. exact V. }
  split; [| exact N]. subst e. unfold enc_ok. cbn [e_siz e_tcp e_tlm e_com t_comps t_csty t_prg t_layers t_mct t_pocs].
  split.
  { unfold siz_ok. cbn [rsiz x0 x1 y0 y1 tx0 ty0 tdx tdy comps]. split; [lia |]. split; [exact G1 |]. split; [exact G2 |].
    split; [unfold numcomps; cbn [comps]; lia |]. split; [exact A3 |]. exact G3. }
  split; [exact F |]. split; [unfold numcomps; cbn [comps]; rewrite length_tccps; reflexivity |].
  split; [rewrite u32_id by lia; lia |]. split; [lia |]. split; [lia |]. split; [apply mct_range; lia |].
  split; [| split; [exact I | split; [lia | discriminate]]].
  unfold numcomps. cbn [comps]. intros c Hc. unfold comp_params_ok. cbn [e_tcp t_comps t_csty].
  rewrite !N0 by lia. rewrite Forall_forall in A3, A4.
  assert (In_c : In (nth (Z.to_nat c) (i_comps im) (mkComp 0 0 0 0)) (i_comps im)) by (apply nth_In; lia).
  destruct (component_ok fs im p (Z.to_nat c) _ T A E1 N E4 (A3 _ In_c) (A4 _ In_c)) as (K1 & K2 & K3 & K4 & K5 & K6).
  repeat (split; [assumption |]). reflexivity.
Qed.

(** Whatever parameters the set-up and the validation accept, if what they leave
    unchecked is in order too, then the main header is written, and a reader gets
    from it the image and its tiles, and for every component the resolutions,
    code-blocks, precincts, transform, step sizes and region shift that were asked
    for. *)
Theorem c84_header : forall fs other ihdr im p e old rest, typed im p -> asked_ok fs im p ->
  setup fs im p = Ok e -> validate e = true -> fits ihdr (e_siz e) ->
  exists hd s t, write_header e old = Some hd /\ read_header other ihdr 0 (hd ++ be 2 SOT ++ rest) = Some (s, t, rest) /\
    (x0 s, y0 s, x1 s, y1 s, comps s) = (i_x0 im, i_y0 im, i_x1 im, i_y1 im, i_comps im) /\
    (tx0 s, ty0 s) = (q_tx0 p, q_ty0 p) /\
    (tdx s, tdy s) = (if q_tile_on p then (q_tdx p, q_tdy p) else (i_x1 im - q_tx0 p, i_y1 im - q_ty0 p)) /\
    t_csty t = q_csty p /\ t_prg t = q_prg p /\ t_layers t = (if q_layers p =? 0 then 1 else q_layers p) /\ t_pocs t = [] /\
    0 <= t_mct t <= 1 /\ (t_mct t = 1 <-> q_mct p = 1 /\ ((length (i_comps im) < 3)%nat \/ one_sampling (i_comps im))) /\
    forall c, 0 <= c < Z.of_nat (length (i_comps im)) ->
      let k := at_ (t_comps t) c in
      let prec := c_prec (nth (Z.to_nat c) (i_comps im) (mkComp 0 0 0 0)) in
      numres k = q_numres p /\ 2 ^ cblkw k = q_cblkw p /\ 2 ^ cblkh k = q_cblkh p /\ cblksty k = q_mode p /\
      qmfbid k = (if q_irreversible p then 0 else 1) /\ roishift k = (if c =? q_roi_comp p then q_roi_shift p else 0) /\
      (forall r, 0 <= r < q_numres p ->
        if Z.testbit (q_csty p) 0
        then stands_for (prcw k r) (asked p (q_prcw p) r) /\ stands_for (prch k r) (asked p (q_prch p) r)
        else prcw k r = 15 /\ prch k r = 15) /\
      qntsty k = (if q_irreversible p then 2 else 0) /\ numgbits k = 2 /\
      (q_irreversible p = false -> forall b, 0 <= b < 3 * q_numres p - 2 -> expn k b = prec + gain_of b) /\
      (q_irreversible p = true -> forall b, 0 <= b < 3 * q_numres p - 2 ->
        let v := fs (q_numres p - 1 - (if b =? 0 then 0 else (b - 1) / 3 + 1)) (if b =? 0 then 0 else (b - 1) mod 3 + 1) in
        1 <= v < 2 ^ 31 -> step_near v (13 + prec - expn k b) (mant k b)).
Proof.
  intros fs other ihdr im p e old rest T A H V F. destruct (setup_enc_ok _ _ _ _ _ T A H V F) as [EO N].
  destruct (c31_main_header other ihdr 0 e old rest EO) as (hd & t & W & Rd & Q1 & Q2 & Q3 & Q4 & Q5 & _ & Q7).
  exists hd, (e_siz e), t. split; [exact W |]. split; [exact Rd |].
  destruct (setup_inv _ _ _ _ H) as (layers & dx & dy & E1 & E2 & E3 & E4 & E5).
  assert (A' := A). destruct A' as (A1 & A2 & A3 & A4 & A5 & A6 & A7 & A8 & A9 & A10 & A11).
  destruct (layers_spec _ _ E2) as [L1 L2]. destruct (tiles_spec _ _ _ _ T A1 E3) as (_ & _ & _ & G4).
  assert (T' := T). destruct T' as (T1 & T2 & T3 & T4 & T5 & T6 & T7 & T8 & T9).
  assert (N0 : forall c, 0 <= c < Z.of_nat (length (i_comps im)) ->
    at_ (tccps fs p 0 (i_comps im)) c = tccp_of fs p (Z.to_nat c) (nth (Z.to_nat c) (i_comps im) (mkComp 0 0 0 0))).
  { intros c Hc. unfold at_. rewrite nth_tccps by lia. reflexivity. }
  subst e. cbn [e_siz e_tcp e_tlm t_comps t_csty t_prg t_layers t_mct t_pocs x0 x1 y0 y1 comps tx0 ty0 tdx tdy numcomps] in *.
  destruct A1 as (B1 & B2 & B3 & B4 & _). unfold in_i32 in T7, T8. rewrite (u32_id (q_tx0 p)), (u32_id (q_ty0 p)) by lia.
  split; [reflexivity |]. split; [reflexivity |]. split; [destruct (q_tile_on p); destruct G4 as [-> ->]; reflexivity |].
  split; [rewrite Q1; apply u32_id; lia |]. split; [exact Q2 |]. split; [congruence |]. split; [rewrite Q5; destruct (has_poc _); reflexivity |].
  split; [rewrite Q4; apply mct_range; lia |]. split; [rewrite Q4; apply mct_spec; lia |].
  intros c Hc. set (k := at_ (t_comps t) c). unfold numcomps in Q7. cbn [comps] in Q7. destruct (Q7 c Hc) as (S1 & S2 & S3 & _). rewrite N0 in S1, S2, S3 by lia.
  fold k in S1, S2, S3. set (cc := nth (Z.to_nat c) (i_comps im) (mkComp 0 0 0 0)) in *.
  assert (In_c : In cc (i_comps im)) by (apply nth_In; lia). rewrite Forall_forall in A3, A4.
  destruct S1 as (S11 & S12 & S13 & S14 & S15 & S16 & S17). destruct S2 as (S21 & S22 & S23).
  unfold tccp_of in S11, S12, S13, S14, S15, S16, S17, S21, S22, S23, S3.
  cbn [numres cblkw cblkh cblksty qmfbid prcw prch csty qntsty numgbits roishift] in S11, S12, S13, S14, S15, S16, S17, S21, S22, S3.
  pose proof (proj1 (c84_blocks p T1 T2 T3) E1) as (Bn & a & b & Ba & Bb & La & Lb & Ls).
  assert (Fa : floorlog2 (q_cblkw p) = a) by (rewrite Ba; apply floorlog2_pow; lia).
  assert (Fb : floorlog2 (q_cblkh p) = b) by (rewrite Bb; apply floorlog2_pow; lia).
  split; [congruence |]. split; [rewrite <- S13, Fa; congruence |]. split; [rewrite <- S14, Fb; congruence |].
  split; [rewrite <- S15; apply u32_id; lia |]. split; [congruence |].
  split. { rewrite S3. rewrite Z2Nat.id by lia. reflexivity. }
  split.
  { intros r Hr. destruct (S17 r Hr) as [P1 P2]. unfold prcs in P1, P2.
    replace ((0 <=? r) && (r <? q_numres p)) with true in P1, P2 by (symmetry; apply andb_true_intro; rewrite Z.leb_le, Z.ltb_lt; lia).
    rewrite land1 in P1, P2. destruct (Z.testbit (q_csty p) 0) eqn:Bt; cbn [negb] in P1, P2; [| split; congruence].
    destruct (A10 Bt (q_prcw p) (or_introl eq_refl)) as [W1 _]. destruct (A10 Bt (q_prch p) (or_intror eq_refl)) as [H1 _].
    rewrite <- P1, <- P2. split; [exact (proj1 (prc_of_spec p (q_prcw p) r ltac:(lia) (E4 eq_refl) Hr W1)) |
      exact (proj1 (prc_of_spec p (q_prch p) r ltac:(lia) (E4 eq_refl) Hr H1))]. }
  split; [exact S21 |]. split; [exact S22 |].
  split; intros Ir bd Hb; rewrite Ir in *; unfold bands in S23; cbn [qntsty numres Z.eqb] in S23; specialize (S23 bd Hb);
    unfold step in S23; cbn [qntsty expn mant Z.eqb andb] in S23; rewrite in_bands_true in S23 by lia.
  - rewrite stepsize_reversible in S23 by (try lia; destruct (A3 _ In_c); lia). cbn [fst snd] in S23. congruence.
  - cbv zeta. intros Hv. destruct (A3 _ In_c) as (Pr & _).
    destruct (stepsize_irreversible fs (q_numres p) (c_prec cc) bd ltac:(lia) ltac:(lia) Hb Hv) as (l & Es & Nr).
    rewrite Es in S23. cbn [fst snd Pos.eqb andb] in S23. rewrite in_bands_true in S23 by lia.
    assert (X : expn k bd = c_prec cc + 13 - l) by congruence.
    assert (Y : mant k bd = snd (stepsize fs true (q_numres p) (c_prec cc) bd)) by (rewrite Es; cbn [snd]; congruence).
    rewrite X, Y, Es. cbn [snd]. replace (13 + c_prec cc - (c_prec cc + 13 - l)) with l by lia. exact Nr.
Qed.

(** Parameters that are in order are not refused by the set-up, as long as there are at most 100
    layers and 65535 tiles. *)
Theorem c84_accepts : forall fs im p, typed im p -> area_ok im p -> blocks_ok p -> 0 <= q_layers p <= 100 ->
  (Z.testbit (q_csty p) 0 = true -> 0 < q_res_spec p) ->
  (q_tile_on p = true -> exists tw th, ceil_of (i_x1 im - q_tx0 p) (q_tdx p) tw /\ ceil_of (i_y1 im - q_ty0 p) (q_tdy p) th /\ tw * th <= 65535) ->
  exists e, setup fs im p = Ok e.
Proof.
  intros fs im p T A B L R W. assert (T' := T). destruct T' as (T1 & T2 & T3 & T4 & T5 & T6 & T7 & T8 & _). unfold in_i32 in T5, T6, T7, T8.
  unfold setup. rewrite (proj2 (c84_blocks p T1 T2 T3) B). cbn [negb].
  assert (C : exists n, check_layers p = Some n).
  { unfold check_layers. destruct (Z.eqb_spec (q_layers p) 0); [eexists; reflexivity |].
    replace ((1 <=? q_layers p) && (q_layers p <=? 100)) with true by (symmetry; apply andb_true_intro; rewrite !Z.leb_le; lia). eauto. }
  destruct C as [n ->]. destruct A as (A1 & A2 & A3 & A4 & A5).
  assert (D : exists dx dy, tiles im p = Ok (dx, dy)).
  { unfold tiles. destruct (q_tile_on p); [| eauto]. destruct (A5 eq_refl) as (B1 & B2 & B3 & B4). destruct (W eq_refl) as (tw & th & Cw & Ch & M).
    rewrite (u32_id (q_tx0 p)), (u32_id (q_ty0 p)), (u32_id (q_tdx p)), (u32_id (q_tdy p)) by lia.
    rewrite (u32_id (i_x1 im - q_tx0 p)), (u32_id (i_y1 im - q_ty0 p)) by lia.
    destruct (Z.eqb_spec (q_tdx p) 0); [lia |]. destruct (Z.eqb_spec (q_tdy p) 0); [lia |].
    destruct (c29_uint_ceildiv (i_x1 im - q_tx0 p) (q_tdx p)) as (tw' & -> & Cw'); [unfold is_u32; lia .. |].
    destruct (c29_uint_ceildiv (i_y1 im - q_ty0 p) (q_tdy p)) as (th' & -> & Ch'); [unfold is_u32; lia .. |].
    assert (tw' = tw) by (apply (ceil_unique (i_x1 im - q_tx0 p) (q_tdx p)); [lia | assumption ..]).
    assert (th' = th) by (apply (ceil_unique (i_y1 im - q_ty0 p) (q_tdy p)); [lia | assumption ..]). subst tw' th'.
    assert (0 < th) by (unfold ceil_of in Ch; nia). destruct (Z.eqb_spec th 0); [lia |].
    destruct (Z.ltb_spec (65535 / th) tw) as [X | X]; [| eauto]. exfalso.
    assert (tw <= 65535 / th) by (apply Z.div_le_lower_bound; lia). lia. }
  destruct D as (dx & dy & ->). rewrite land1, negb_involutive. destruct (Z.testbit (q_csty p) 0) eqn:Bt; cbn [andb]; [| eauto].
  specialize (R eq_refl). destruct (Z.leb_spec (q_res_spec p) 0); [lia | eauto].
Qed.

(** Then the validation asks for at most 32 resolutions, and for tiles with a
    sample at the lowest of them. *)
Theorem c84_validate : forall fs im p e, typed im p -> area_ok im p -> i_comps im <> [] -> setup fs im p = Ok e ->
  validate e = true <-> q_numres p <= 32 /\
    let '(dx, dy) := if q_tile_on p then (q_tdx p, q_tdy p) else (i_x1 im - q_tx0 p, i_y1 im - q_ty0 p) in
    2 ^ (q_numres p - 1) <= dx /\ 2 ^ (q_numres p - 1) <= dy.
Proof.
  intros fs im p e T A Hc H. destruct (setup_inv _ _ _ _ H) as (layers & dx & dy & E1 & E2 & E3 & E4 & E5).
  destruct (tiles_spec _ _ _ _ T A E3) as (_ & _ & _ & G4). destruct T as (T1 & T2 & T3 & _).
  destruct (proj1 (c84_blocks p T1 T2 T3) E1) as (Bn & _).
  assert (N0 : numres (at_ (t_comps (e_tcp e)) 0) = q_numres p).
  { subst e. cbn [e_tcp t_comps]. unfold at_. rewrite nth_tccps; [reflexivity |]. destruct (i_comps im); [contradiction | cbn; lia]. }
  assert (D : (tdx (e_siz e), tdy (e_siz e)) = (if q_tile_on p then (q_tdx p, q_tdy p) else (i_x1 im - q_tx0 p, i_y1 im - q_ty0 p))).
  { subst e. cbn [e_siz tdx tdy]. destruct (q_tile_on p); destruct G4 as [-> ->]; reflexivity. }
  rewrite <- D. unfold validate. rewrite N0.
  destruct (Z.eqb_spec (q_numres p) 0); [lia |]. cbn [orb]. destruct (Z.ltb_spec 32 (q_numres p)) as [L | L]; cbn [negb andb].
  - split; [discriminate | intros [X _]; lia].
  - assert (P : u32 (i32 (Z.shiftl 1 (u32 (q_numres p - 1) mod 32))) = 2 ^ (q_numres p - 1)).
    { rewrite (u32_id (q_numres p - 1)) by lia. destruct (Z.eq_dec (q_numres p) 32) as [-> | K]; [reflexivity |].
      rewrite shift1 by lia. apply u32_id. assert (2 ^ (q_numres p - 1) <= 2 ^ 30) by (apply Z.pow_le_mono_r; lia).
      assert (0 < 2 ^ (q_numres p - 1)) by (apply Z.pow_pos_nonneg; lia). lia. }
    rewrite P, andb_true_iff, !negb_true_iff, !Z.ltb_ge. tauto.
Qed.

(** ** Where accepted parameters do not lead to a readable file *)

Definition gray (w : Z) (prec : Z) : image := mkImage 0 0 w w [mkComp prec 0 1 1].
Definition plain : params := mkParams 3 64 64 1 0 0 0 0 false (-1) 0 0 zero zero false 0 0 0 0 [].
Definition sized (n k : Z) (w : Z) : params := mkParams n 64 64 1 1 0 0 0 false (-1) 0 k (fun _ => w) (fun _ => w) false 0 0 0 0 [].
Definition no_steps : Z -> Z -> Z := fun _ _ => 8192.
Definition header (e : enc) : list Z := match write_header e (fun _ => []) with Some hd => hd | None => [] end.
(** Set-up and validation. *)
Definition made (fs : Z -> Z -> Z) (im : image) (p : params) : option enc :=
  match setup fs im p with Ok e => if validate e then Some e else None | _ => None end.

Lemma made_spec : forall fs im p e, made fs im p = Some e -> setup fs im p = Ok e /\ validate e = true.
Proof.
  intros fs im p e H. unfold made in H. destruct (setup fs im p) as [a | |]; try discriminate. destruct (validate a) eqn:V; [| discriminate].
  injection H as <-. auto.
Qed.

(** What a reader makes of the header (it meets none of the segments that [HdrModel]
    leaves to others): for component 0 the precincts and the step sizes. *)
Definition read_back (e : enc) : option tcp :=
  match read_header (fun _ _ _ => None) (0, 0) 0 (header e ++ be 2 SOT) with Some (_, t, _) => Some t | None => None end.

(** One size of precincts given for four resolutions: it is halved down to 1, and
    no reader takes precincts of 1 but at the lowest resolution. *)
Theorem c84_precinct_refuted : exists im p, blocks_ok p /\ area_ok im p /\ (forall r, 1 <= q_prcw p r <= 32768 /\ 1 <= q_prch p r <= 32768) /\
  option_map read_back (made no_steps im p) = Some None.
Proof.
  exists (gray 64 8), (sized 4 1 4). split; [| split; [| split]].
  - split; [cbn; lia |]. exists 6, 6. cbn. lia.
  - unfold area_ok, gray, sized. cbn. split; [lia |]. split; [lia |]. split; [lia |]. split; [lia |]. discriminate.
  - intros r. cbn. lia.
  - vm_compute. reflexivity.
Qed.

(** Precincts of 65536 samples are written as ones of 1 by 2. *)
Theorem c84_large_precinct_refuted : exists im p, blocks_ok p /\ area_ok im p /\ asked p (q_prcw p) 0 = 2 ^ 16 /\
  option_map (fun e => option_map (fun t => (prcw (at_ (t_comps t) 0) 0, prch (at_ (t_comps t) 0) 0)) (read_back e)) (made no_steps im p) = Some (Some (0, 1)).
Proof.
  exists (gray 64 8), (sized 1 1 65536). split; [| split; [| split]].
  - split; [cbn; lia |]. exists 6, 6. cbn. lia.
  - unfold area_ok, gray, sized. cbn. split; [lia |]. split; [lia |]. split; [lia |]. split; [lia |]. discriminate.
  - reflexivity.
  - vm_compute. reflexivity.
Qed.

(** A tile offset behind the start of the image is accepted and written. *)
Theorem c84_offset_refuted : exists im p, blocks_ok p /\ i_x0 im < q_tx0 p /\ option_map read_back (made no_steps im p) = Some None.
Proof.
  exists (gray 64 8), (mkParams 3 64 64 1 0 0 0 0 false (-1) 0 0 zero zero false 0 0 1 0 []). split; [| split].
  - split; [cbn; lia |]. exists 6, 6. cbn. lia.
  - cbn. lia.
  - vm_compute. reflexivity.
Qed.

(** With 30 bits the exponent of the last band is 32, and is written as 0. *)
Theorem c84_precision_refuted : exists im p, Forall comp_ok (i_comps im) /\ blocks_ok p /\ area_ok im p /\
  option_map (fun e => (expn (at_ (t_comps (e_tcp e)) 0) 3, option_map (fun t => expn (at_ (t_comps t) 0) 3) (read_back e))) (made no_steps im p) = Some (32, Some 0).
Proof.
  exists (gray 64 30), plain. split; [| split; [| split]].
  - constructor; [| constructor]. unfold comp_ok. cbn. lia.
  - split; [cbn; lia |]. exists 6, 6. cbn. lia.
  - unfold area_ok, gray, plain. cbn. split; [lia |]. split; [lia |]. split; [lia |]. split; [lia |]. discriminate.
  - vm_compute. reflexivity.
Qed.

(** More than 100 layers, or fewer than none, are a panic instead of an error. *)
Theorem c84_layers_refuted : forall fs im p, blocks_ok p -> typed im p -> q_layers p < 0 \/ 100 < q_layers p -> setup fs im p = Panicked.
Proof.
  intros fs im p B (T1 & T2 & T3 & _) L. unfold setup. rewrite (proj2 (c84_blocks p T1 T2 T3) B). cbn [negb]. unfold check_layers.
  destruct (Z.eqb_spec (q_layers p) 0); [lia |].
  replace ((1 <=? q_layers p) && (q_layers p <=? 100)) with false; [reflexivity |].
  symmetry. rewrite andb_false_iff, !Z.leb_gt. lia.
Qed.

(** So is a tile offset at the end of the image, and so are precincts asked for
    without a size. *)
Theorem c84_panic_refuted : forall fs im p, blocks_ok p -> typed im p -> 0 <= q_layers p <= 100 ->
  (q_tile_on p = true /\ 0 < q_tdx p /\ 0 < q_tdy p /\ q_ty0 p = i_y1 im) \/
  (q_tile_on p = false /\ Z.testbit (q_csty p) 0 = true /\ q_res_spec p <= 0) -> setup fs im p = Panicked.
Proof.
  intros fs im p B (T1 & T2 & T3 & T4 & T5 & T6 & T7 & T8 & _) L H. unfold in_i32 in T5, T6, T7, T8.
  unfold setup. rewrite (proj2 (c84_blocks p T1 T2 T3) B). cbn [negb].
  assert (C : exists n, check_layers p = Some n).
  { unfold check_layers. destruct (Z.eqb_spec (q_layers p) 0); [eexists; reflexivity |].
    replace ((1 <=? q_layers p) && (q_layers p <=? 100)) with true by (symmetry; apply andb_true_intro; rewrite !Z.leb_le; lia). eauto. }
  destruct C as [n ->]. destruct H as [(H1 & H2 & H3 & H4) | (H1 & H2 & H3)]; unfold tiles; rewrite H1.
  - rewrite (u32_id (q_tdx p)), (u32_id (q_tdy p)) by lia. destruct (Z.eqb_spec (q_tdx p) 0); [lia |]. destruct (Z.eqb_spec (q_tdy p) 0); [lia |].
    assert (E : u32 (i_y1 im - u32 (q_ty0 p)) = 0).
    { rewrite H4. unfold u32. rewrite Zminus_mod_idemp_r, Z.sub_diag. reflexivity. }
    rewrite E. assert (R : is_u32 (u32 (i_x1 im - u32 (q_tx0 p)))) by (unfold is_u32, u32; apply Z.mod_pos_bound; lia).
    destruct (c29_uint_ceildiv _ (q_tdx p) R) as (tw & -> & _); [unfold is_u32; lia | lia |].
    destruct (c29_uint_ceildiv 0 (q_tdy p)) as (th & -> & Ch); [unfold is_u32; lia .. |].
    assert (th = 0) by (apply (ceil_unique 0 (q_tdy p)); [lia | exact Ch | unfold ceil_of; lia]). subst th. reflexivity.
  - rewrite land1, H2. destruct (Z.leb_spec (q_res_spec p) 0); [reflexivity | lia].
Qed.

(** ** Examples *)

(** Two sizes given for four resolutions. *)
Definition two_sizes : params := mkParams 4 32 64 0 1 2 0 0 false 0 5 2 (fun k => if k =? 0 then 64 else 40) (fun k => if k =? 0 then 128 else 32)
  true 40 50 0 0 [80; 81].

Example c84_ex : option_map (fun e => option_map (fun t => (t_layers t, t_prg t, map (fun k => (numres k, cblkw k, cblkh k, roishift k)) (t_comps t))) (read_back e))
    (made no_steps (gray 100 8) two_sizes) = Some (Some (1, 2, [(4, 5, 6, 5)])).
Proof. vm_compute. reflexivity. Qed.

Example c84_ex_precincts : option_map (fun e => option_map (fun t => map (fun r => (prcw (at_ (t_comps t) 0) r, prch (at_ (t_comps t) 0) r)) [0; 1; 2; 3]) (read_back e))
    (made no_steps (gray 100 8) two_sizes) = Some (Some [(3, 3); (4, 4); (5, 5); (6, 7)]).
Proof. vm_compute. reflexivity. Qed.

Example c84_ex_asked : map (asked two_sizes (q_prcw two_sizes)) [0; 1; 2; 3] = [10; 20; 40; 64].
Proof. vm_compute. reflexivity. Qed.

(** Steps of 1, 3/2 and 8191/8192 in 8 bits. *)
Example c84_ex_steps : map (fun v => encode_stepsize v 8) [8192; 12288; 8191] = [(8, 0); (8, 1024); (9, 2047)].
Proof. reflexivity. Qed.

(** These parameters meet the hypotheses of [c84_header]. *)
Example c84_ex_ok : typed (gray 100 8) two_sizes /\ asked_ok no_steps (gray 100 8) two_sizes.
Proof.
  split.
  - unfold typed, two_sizes, in_i32. cbn. repeat (split; [lia |]). intros k. destruct (k =? 0); lia.
  - unfold asked_ok. split; [unfold area_ok, two_sizes, gray; cbn; repeat (split; [lia |]); lia |].
    split; [cbn; lia |]. split; [constructor; [unfold comp_ok; cbn; lia | constructor] |].
    split; [constructor; [unfold steps_ok; cbn; lia | constructor] |]. cbn [two_sizes q_csty q_prg q_mct q_mode q_roi_shift q_comment length].
    repeat (split; [lia |]). split; [| cbn; lia]. intros _ sizes H. destruct H as [-> | ->]; cbn [two_sizes q_prcw q_prch].
    + split; [intros k _; destruct (k =? 0); lia |]. intros r Hr. cbn in Hr. assert (C : r = 1 \/ r = 2 \/ r = 3) by lia.
      destruct C as [-> | [-> | ->]]; vm_compute; discriminate.
    + split; [intros k _; destruct (k =? 0); lia |]. intros r Hr. cbn in Hr. assert (C : r = 1 \/ r = 2 \/ r = 3) by lia.
      destruct C as [-> | [-> | ->]]; vm_compute; discriminate.
Qed.

Print Assumptions c84_blocks.
Print Assumptions c84_header.
Print Assumptions c84_accepts.
Print Assumptions c84_validate.
Print Assumptions c84_precinct_refuted.
Print Assumptions c84_large_precinct_refuted.
Print Assumptions c84_offset_refuted.
Print Assumptions c84_precision_refuted.
Print Assumptions c84_layers_refuted.
Print Assumptions c84_panic_refuted.
