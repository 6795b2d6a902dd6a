(** Precincts along one axis, and the arithmetic of pi.rs. *)

From Coq Require Import ZArith List Bool Lia.
From Verif Require Import Ints Mem PiModel PiRun PiSpec.
Import ListNotations.
Local Open Scope Z_scope.

Lemma cdiv_iff : forall a D q, 0 < D -> cdiv a D = q <-> (q - 1) * D < a <= q * D.
Proof.
  intros a D q HD. unfold cdiv. split.
  - intros <-. pose proof (Z.div_mod (a + D - 1) D ltac:(lia)) as E. pose proof (Z.mod_pos_bound (a + D - 1) D HD) as B.
    set (k := (a + D - 1) / D) in *. rewrite Z.mul_sub_distr_r. rewrite (Z.mul_comm k D). lia.
  - intros H. symmetry. apply (Z.div_unique (a + D - 1) D q (a + D - 1 - D * q)); [left | lia].
    rewrite Z.mul_sub_distr_r in H. lia.
Qed.

Lemma cdiv_bounds : forall a D, 0 < D -> (cdiv a D - 1) * D < a <= cdiv a D * D.
Proof. intros a D H. apply cdiv_iff; [exact H | reflexivity]. Qed.

Lemma cdiv_mono : forall a b D, 0 < D -> a <= b -> cdiv a D <= cdiv b D.
Proof. intros. unfold cdiv. apply Z.div_le_mono; lia. Qed.

Lemma cdiv_mult : forall k D, 0 < D -> cdiv (k * D) D = k.
Proof. intros. apply cdiv_iff; [assumption |]. rewrite Z.mul_sub_distr_r. lia. Qed.

Lemma cdiv_nonneg : forall a D, 0 < D -> 0 <= a -> 0 <= cdiv a D.
Proof. intros. unfold cdiv. apply Z.div_pos; lia. Qed.

Lemma cdiv_le : forall a D, 0 < D -> 0 <= a -> cdiv a D <= a.
Proof.
  intros a D HD Ha. pose proof (cdiv_bounds a D HD) as [B _].
  assert (cdiv a D - 1 < a); [| lia]. destruct (Z.lt_ge_cases (cdiv a D - 1) 0); [lia |].
  eapply Z.le_lt_trans; [| exact B]. rewrite <- (Z.mul_1_r (cdiv a D - 1)) at 1. apply Z.mul_le_mono_nonneg_l; lia.
Qed.

Lemma cdiv_cdiv : forall a D E, 0 < D -> 0 < E -> cdiv (cdiv a D) E = cdiv a (D * E).
Proof.
  intros a D E HD HE. symmetry. apply cdiv_iff; [apply Z.mul_pos_pos; assumption |].
  pose proof (cdiv_bounds a D HD) as [A1 A2]. pose proof (cdiv_bounds (cdiv a D) E HE) as [B1 B2].
  set (x := cdiv a D) in *. set (y := cdiv x E) in *. split.
  - eapply Z.le_lt_trans; [| exact A1]. rewrite (Z.mul_comm D E), Z.mul_assoc. apply Z.mul_le_mono_nonneg_r; lia.
  - eapply Z.le_trans; [exact A2 |]. rewrite (Z.mul_comm D E), Z.mul_assoc. apply Z.mul_le_mono_nonneg_r; lia.
Qed.

Definition edge (t0 D P p : Z) : Prop := p mod (D * P) = 0 \/ (p = t0 /\ cdiv t0 D mod P <> 0).

Lemma axis_hit : forall t0 t1 D P p, 0 < D -> 0 < P -> t0 <= p < t1 -> cdiv t0 D < cdiv t1 D -> edge t0 D P p ->
  let i := cdiv p D / P - cdiv t0 D / P in 0 <= i < spans t0 t1 D P /\ anchor t0 D P i = p.
Proof.
  intros t0 t1 D P p HD HP Hp HR He. cbv zeta. unfold spans, anchor. rewrite (proj2 (Z.ltb_lt _ _)) by exact HR.
  pose proof (cdiv_bounds t0 D HD) as [A1 A2]. pose proof (cdiv_bounds t1 D HD) as [B1 B2].
  set (R0 := cdiv t0 D) in *. set (R1 := cdiv t1 D) in *.
  pose proof (cdiv_bounds R1 P HP) as [C1 C2]. set (N := cdiv R1 P) in *.
  destruct He as [He | [-> He]].
  - apply Z.mod_divide in He; [| apply Z.neq_mul_0; lia]. destruct He as [k ->].
    assert (Q : cdiv (k * (D * P)) D = k * P).
    { replace (k * (D * P)) with (k * P * D) by ring. apply cdiv_mult. exact HD. }
    rewrite Q, Z.div_mul by lia.
    assert (K1 : R0 <= k * P). { apply Z.lt_succ_r. apply (Z.mul_lt_mono_pos_r D); [exact HD |].
      replace (Z.succ (k * P) * D) with (k * (D * P) + D) by ring. rewrite Z.mul_sub_distr_r in A1. lia. }
    assert (K2 : R0 / P <= k). { rewrite <- (Z.div_mul k P) by lia. apply Z.div_le_mono; lia. }
    assert (K3 : k * P < R1). { apply (Z.mul_lt_mono_pos_r D); [exact HD |].
      replace (k * P * D) with (k * (D * P)) by ring. lia. }
    assert (K4 : k < N). { apply (Z.mul_lt_mono_pos_r P); [exact HP | lia]. }
    split; [lia |]. replace (R0 / P + (k - R0 / P)) with k by ring.
    replace (k * P * D) with (k * (D * P)) by ring. apply Z.max_r. lia.
  - fold R0 in He |- *. replace (R0 / P - R0 / P) with 0 by ring. rewrite Z.add_0_r.
    pose proof (Z.div_mod R0 P ltac:(lia)) as E. pose proof (Z.mod_pos_bound R0 P HP) as M.
    split.
    + split; [lia |]. assert (R0 / P < N); [| lia]. apply (Z.mul_lt_mono_pos_r P); [exact HP |].
      rewrite (Z.mul_comm (R0 / P)). lia.
    + apply Z.max_l. apply Z.lt_le_incl. eapply Z.le_lt_trans; [| exact A1].
      apply Z.mul_le_mono_nonneg_r; [lia |]. rewrite (Z.mul_comm (R0 / P)). lia.
Qed.

Lemma axis_back : forall t0 t1 D P i, 0 < D -> 0 < P -> 0 <= i < spans t0 t1 D P ->
  let p := anchor t0 D P i in
  t0 <= p < t1 /\ cdiv t0 D < cdiv t1 D /\ edge t0 D P p /\ cdiv p D / P - cdiv t0 D / P = i.
Proof.
  intros t0 t1 D P i HD HP Hi. cbv zeta. unfold spans, anchor, edge in *.
  destruct (Z.ltb_spec (cdiv t0 D) (cdiv t1 D)) as [HR | HR]; [| lia].
  pose proof (cdiv_bounds t0 D HD) as [A1 A2]. pose proof (cdiv_bounds t1 D HD) as [B1 B2].
  set (R0 := cdiv t0 D) in *. set (R1 := cdiv t1 D) in *.
  pose proof (cdiv_bounds R1 P HP) as [C1 C2]. set (N := cdiv R1 P) in *.
  set (K := R0 / P + i). assert (HK : K < N) by (subst K; lia).
  assert (KP : K * P < R1). { eapply Z.le_lt_trans; [| exact C1]. apply Z.mul_le_mono_nonneg_r; lia. }
  assert (T1 : K * P * D < t1). { eapply Z.le_lt_trans; [| exact B1]. apply Z.mul_le_mono_nonneg_r; lia. }
  destruct (Z.le_ge_cases t0 (K * P * D)) as [Hc | Hc].
  - rewrite Z.max_r by exact Hc. split; [lia |]. split; [exact HR |]. split.
    + left. replace (K * P * D) with (K * (D * P)) by ring. apply Z.mod_mul. apply Z.neq_mul_0; lia.
    + rewrite cdiv_mult, Z.div_mul by lia. subst K. lia.
  - rewrite Z.max_l by exact Hc. fold R0.
    assert (T2 : t0 < t1). { assert (R0 <= R1 - 1) by lia. assert (R0 * D <= (R1 - 1) * D) by (apply Z.mul_le_mono_nonneg_r; lia). lia. }
    split; [lia |]. split; [exact HR |].
    pose proof (Z.div_mod R0 P ltac:(lia)) as E. pose proof (Z.mod_pos_bound R0 P HP) as M.
    destruct (Z.eq_dec t0 (K * P * D)) as [Eq | Ne].
    + split.
      * left. rewrite Eq. replace (K * P * D) with (K * (D * P)) by ring. apply Z.mod_mul. apply Z.neq_mul_0; lia.
      * assert (R0 = K * P) by (unfold R0; rewrite Eq; apply cdiv_mult; exact HD).
        assert (R0 / P = K) by (rewrite H; apply Z.div_mul; lia). subst K. lia.
    + assert (K * P < R0). { apply (Z.mul_lt_mono_pos_r D); [exact HD |]. lia. }
      assert (i <= 0). { assert (K < R0 / P + 1); [| subst K; lia]. apply (Z.mul_lt_mono_pos_r P); [exact HP |].
        rewrite Z.mul_add_distr_r, (Z.mul_comm (R0 / P)). lia. }
      assert (i = 0) by lia. split; [right; split; [reflexivity |] | lia].
      subst K. replace (R0 / P + i) with (R0 / P) in * by lia. rewrite (Z.mul_comm (R0 / P)) in *. lia.
Qed.

Lemma spans_nonneg : forall t0 t1 D P, 0 < D -> 0 < P -> 0 <= spans t0 t1 D P.
Proof.
  intros t0 t1 D P HD HP. unfold spans. destruct (Z.ltb_spec (cdiv t0 D) (cdiv t1 D)) as [H | H]; [| lia].
  pose proof (cdiv_bounds (cdiv t1 D) P HP) as [_ C2].
  assert (cdiv t0 D / P < cdiv (cdiv t1 D) P + 1); [| lia]. apply Z.div_lt_upper_bound; [exact HP |].
  rewrite Z.mul_comm, Z.mul_add_distr_r. lia.
Qed.

(** ** Machine arithmetic *)

Lemma shl64_small : forall a k, 0 <= k < 64 -> 0 <= a * 2 ^ k < 2 ^ 64 -> shl64 a k = a * 2 ^ k.
Proof. intros a k Hk H. unfold shl64. rewrite Z.mod_small, Z.shiftl_mul_pow2 by lia. apply u64_id. exact H. Qed.
Lemma shl32_small : forall a k, 0 <= k < 32 -> 0 <= a * 2 ^ k < 2 ^ 32 -> shl32 a k = a * 2 ^ k.
Proof. intros a k Hk H. unfold shl32. rewrite Z.mod_small, Z.shiftl_mul_pow2 by lia. apply u32_id. exact H. Qed.
Lemma shr64_small : forall a k, 0 <= k < 64 -> shr64 a k = a / 2 ^ k.
Proof. intros a k Hk. unfold shr64. rewrite Z.mod_small, Z.shiftr_div_pow2 by lia. reflexivity. Qed.
Lemma shr32_small : forall a k, 0 <= k < 32 -> shr32 a k = a / 2 ^ k.
Proof. intros a k Hk. unfold shr32. rewrite Z.mod_small, Z.shiftr_div_pow2 by lia. reflexivity. Qed.

Lemma pow_bounds : forall k n, 0 <= k <= n -> 1 <= 2 ^ k <= 2 ^ n.
Proof. intros k n H. split; [| apply Z.pow_le_mono_r; lia]. pose proof (Z.pow_pos_nonneg 2 k). lia. Qed.

Lemma ceildiv64_spec : forall a b, 0 <= a < 2 ^ 31 -> 0 < b < 2 ^ 63 -> ceildiv64 a b = cdiv a b.
Proof.
  intros a b Ha Hb. unfold ceildiv64. rewrite (u64_id (a + b)) by lia. rewrite u64_id by lia.
  fold (cdiv a b). apply u32_id. pose proof (cdiv_nonneg a b). pose proof (cdiv_le a b). lia.
Qed.

Lemma ceildiv_spec : forall a b, 0 <= a < 2 ^ 31 -> 0 < b < 2 ^ 63 -> ceildiv a b = cdiv a b.
Proof. exact ceildiv64_spec. Qed.

Lemma ceildivpow2_spec : forall a k, 0 <= a < 2 ^ 31 -> 0 <= k <= 40 -> ceildivpow2 a k = cdiv a (2 ^ k).
Proof.
  intros a k Ha Hk. unfold ceildivpow2. pose proof (pow_bounds k 40 Hk) as B.
  rewrite shl64_small by lia. rewrite Z.mul_1_l. rewrite (u64_id (a + 2 ^ k)) by lia. rewrite u64_id by lia.
  rewrite shr64_small by lia. fold (cdiv a (2 ^ k)). apply u32_id.
  pose proof (cdiv_nonneg a (2 ^ k)). pose proof (cdiv_le a (2 ^ k)). lia.
Qed.

(** The subsampled grid: [d * 2 ^ lev]. *)
Lemma grid_bounds : forall d lev, 1 <= d <= 255 -> 0 <= lev <= 32 -> 1 <= d * 2 ^ lev < 2 ^ 41.
Proof. intros d lev Hd Hl. pose proof (pow_bounds lev 32 Hl). change (2 ^ 32) with 4294967296 in *. nia. Qed.

Lemma count_spec : forall t0 t1 d lev e, 0 <= t0 <= t1 -> t1 < 2 ^ 31 -> 1 <= d <= 255 -> 0 <= lev <= 32 -> 0 <= e <= 15 ->
  count t0 t1 d lev e = spans t0 t1 (d * 2 ^ lev) (2 ^ e).
Proof.
  intros t0 t1 d lev e H0 H1 Hd Hl He. unfold count.
  rewrite !(ceildiv_spec _ d) by lia.
  pose proof (cdiv_nonneg t0 d ltac:(lia) ltac:(lia)) as N0. pose proof (cdiv_le t0 d ltac:(lia) ltac:(lia)) as L0.
  pose proof (cdiv_nonneg t1 d ltac:(lia) ltac:(lia)) as N1. pose proof (cdiv_le t1 d ltac:(lia) ltac:(lia)) as L1.
  rewrite (ceildivpow2_spec (cdiv t0 d) lev) by lia. rewrite (ceildivpow2_spec (cdiv t1 d) lev) by lia.
  pose proof (pow_bounds lev 32 Hl) as PB. pose proof (pow_bounds e 15 He) as EB.
  rewrite !cdiv_cdiv by lia. unfold spans. pose proof (grid_bounds d lev Hd Hl) as GB.
  set (D := d * 2 ^ lev) in *.
  pose proof (cdiv_mono t0 t1 D ltac:(lia) ltac:(lia)) as Mo.
  pose proof (cdiv_nonneg t0 D ltac:(lia) ltac:(lia)) as P0. pose proof (cdiv_le t1 D ltac:(lia) ltac:(lia)) as Q1.
  set (r0 := cdiv t0 D) in *. set (r1 := cdiv t1 D) in *.
  destruct (Z.eqb_spec r0 r1) as [E | E].
  - rewrite (proj2 (Z.ltb_ge _ _)) by lia. reflexivity.
  - rewrite (proj2 (Z.ltb_lt _ _)) by lia. rewrite ceildivpow2_spec by lia.
    pose proof (cdiv_bounds r1 (2 ^ e) ltac:(lia)) as [C1 C2]. pose proof (cdiv_nonneg r1 (2 ^ e) ltac:(lia) ltac:(lia)) as C0.
    rewrite (shr32_small r0 e) by lia.
    pose proof (Z.div_mod r0 (2 ^ e) ltac:(lia)) as DM. pose proof (Z.mod_pos_bound r0 (2 ^ e) ltac:(lia)) as MB.
    assert (Q0 : 0 <= r0 / 2 ^ e) by (apply Z.div_pos; lia).
    set (n1 := cdiv r1 (2 ^ e)) in *. set (n0 := r0 / 2 ^ e) in *.
    assert (W1 : n1 * 2 ^ e < 2 ^ 32) by (rewrite Z.mul_sub_distr_r in C1; lia).
    assert (W0 : n0 * 2 ^ e <= r0) by (rewrite (Z.mul_comm n0); lia).
    assert (Z0 : 0 <= n0 * 2 ^ e) by (apply Z.mul_nonneg_nonneg; lia).
    rewrite (shl32_small n1 e) by lia. rewrite (shl32_small n0 e) by lia. rewrite u32_id by lia.
    rewrite shr32_small by lia. replace (n1 * 2 ^ e - n0 * 2 ^ e) with ((n1 - n0) * 2 ^ e) by ring.
    apply Z.div_mul. lia.
Qed.

(** [starts] and [prc] in terms of the above. *)
Lemma starts_spec : forall p t0 d lev e, 0 <= t0 < 2 ^ 31 -> 1 <= d <= 255 -> 0 <= lev <= 32 -> 0 <= e <= 15 ->
  starts p t0 d lev (u32 (e + lev)) (cdiv t0 (d * 2 ^ lev)) = true <-> edge t0 (d * 2 ^ lev) (2 ^ e) p.
Proof.
  intros p t0 d lev e H0 Hd Hl He. unfold starts, edge. rewrite u32_id by lia.
  pose proof (grid_bounds d lev Hd Hl) as GB. pose proof (pow_bounds lev 32 Hl) as PB. pose proof (pow_bounds e 15 He) as EB.
  assert (X : d * 2 ^ (e + lev) = d * 2 ^ lev * 2 ^ e) by (rewrite Z.pow_add_r by lia; ring).
  rewrite (shl64_small d (e + lev)); [| lia |].
  2: { rewrite X. change (2 ^ 41) with 2199023255552 in GB. change (2 ^ 15) with 32768 in EB. change (2 ^ 64) with 18446744073709551616. nia. }
  rewrite X. rewrite (shl64_small 1 (e + lev)); [| lia |].
  2: { rewrite Z.mul_1_l. pose proof (pow_bounds (e + lev) 47 ltac:(lia)). lia. }
  set (D := d * 2 ^ lev) in *.
  pose proof (cdiv_bounds t0 D ltac:(lia)) as [A1 A2]. pose proof (cdiv_nonneg t0 D ltac:(lia) ltac:(lia)) as A0.
  pose proof (cdiv_le t0 D ltac:(lia) ltac:(lia)) as A3. set (R0 := cdiv t0 D) in *.
  rewrite (shl64_small R0 lev); [| lia |].
  2: { change (2 ^ 31) with 2147483648 in *. change (2 ^ 32) with 4294967296 in *. change (2 ^ 64) with 18446744073709551616. nia. }
  rewrite Z.mul_1_l. replace (2 ^ (e + lev)) with (2 ^ e * 2 ^ lev) by (rewrite Z.pow_add_r by lia; ring).
  rewrite Z.mul_mod_distr_r by lia.
  rewrite orb_true_iff, andb_true_iff, Z.eqb_eq, negb_true_iff, Z.eqb_eq, Z.eqb_neq.
  assert (R0 mod 2 ^ e * 2 ^ lev <> 0 <-> R0 mod 2 ^ e <> 0).
  { rewrite Z.mul_eq_0. split; [intros H; tauto |]. intros H [G | G]; [tauto | lia]. }
  tauto.
Qed.

Lemma prc_spec : forall p t0 d lev e, 0 <= t0 <= p -> p < 2 ^ 31 -> 1 <= d <= 255 -> 0 <= lev <= 32 -> 0 <= e <= 15 ->
  prc p d lev e (cdiv t0 (d * 2 ^ lev)) = cdiv p (d * 2 ^ lev) / 2 ^ e - cdiv t0 (d * 2 ^ lev) / 2 ^ e.
Proof.
  intros p t0 d lev e H0 Hp Hd Hl He. unfold prc.
  pose proof (grid_bounds d lev Hd Hl) as GB. pose proof (pow_bounds e 15 He) as EB.
  rewrite shl64_small by lia. set (D := d * 2 ^ lev) in *.
  rewrite ceildiv64_spec by lia. rewrite !shr32_small by lia.
  pose proof (cdiv_mono t0 p D ltac:(lia) ltac:(lia)) as Mo. pose proof (cdiv_nonneg t0 D ltac:(lia) ltac:(lia)) as A0.
  pose proof (cdiv_le p D ltac:(lia) ltac:(lia)) as A3.
  assert (cdiv t0 D / 2 ^ e <= cdiv p D / 2 ^ e) by (apply Z.div_le_mono; lia).
  assert (0 <= cdiv t0 D / 2 ^ e) by (apply Z.div_pos; lia).
  assert (cdiv p D / 2 ^ e <= cdiv p D) by (apply Z.div_le_upper_bound; nia).
  apply u32_id. lia.
Qed.
