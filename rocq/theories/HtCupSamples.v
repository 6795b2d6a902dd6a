(** Proof part of C74: the samples of a quad. *)

From Coq Require Import ZArith List Bool Lia.
From Verif Require Import Ints HtModel HtSpec HtBits HtForward HtBackward HtUvlcProps HtCupModel HtCupSpec HtCupVlc.
Import ListNotations.
Local Open Scope Z_scope.

(** ** Bits *)

Lemma low_none : forall a k j, 0 <= a < 2 ^ k -> 0 <= k <= j -> Z.testbit a j = false.
Proof.
  intros a k j A J. destruct (Z.eq_dec a 0) as [-> | NZ]; [apply Z.bits_0 |]. apply Z.bits_above_log2; [lia |]. apply Z.lt_le_trans with k; [apply Z.log2_lt_pow2; lia | lia].
Qed.
Lemma lor_disj : forall a b k, 0 <= k -> 0 <= a < 2 ^ k -> Z.lor a (b * 2 ^ k) = a + b * 2 ^ k.
Proof.
  intros a b k K A. assert (D : Z.land a (b * 2 ^ k) = 0).
  { apply Z.bits_inj'. intros j J. rewrite Z.land_spec, Z.bits_0. destruct (Z.lt_ge_cases j k) as [C | C].
    - rewrite Z.mul_pow2_bits_low by lia. apply andb_false_r.
    - rewrite (low_none a k j A) by lia. reflexivity. }
  rewrite <- Z.lxor_lor by exact D. symmetry. apply Z.add_nocarry_lxor, D.
Qed.
Lemma b2z_bit : forall b, Z.b2z b = bit b.
Proof. intros []; reflexivity. Qed.
Lemma land_1 : forall x, Z.land x 1 = x mod 2.
Proof. intros x. change 1 with (Z.ones 1). rewrite Z.land_ones by lia. reflexivity. Qed.
Lemma shr_bit : forall q k, 0 <= k -> Z.land (Z.shiftr q k) 1 = bit (Z.testbit q k).
Proof. intros q k K. rewrite land_1, Z.shiftr_div_pow2 by exact K. rewrite <- Z.testbit_spec' by exact K. apply b2z_bit. Qed.
Lemma land_bit : forall q k, 0 <= k -> Z.land q (2 ^ k) = bit (Z.testbit q k) * 2 ^ k.
Proof.
  intros q k K. apply Z.bits_inj'. intros j J. rewrite Z.land_spec. destruct (Z.eq_dec j k) as [-> | N].
  - rewrite Z.pow2_bits_true by exact K. rewrite andb_true_r, Z.mul_pow2_bits, Z.sub_diag by exact K. destruct (Z.testbit q k); reflexivity.
  - rewrite Z.pow2_bits_false by exact (not_eq_sym N). rewrite andb_false_r. symmetry. destruct (Z.testbit q k); cbn [bit]; [rewrite Z.mul_1_l; apply Z.pow2_bits_false; exact (not_eq_sym N) | apply Z.bits_0].
Qed.
Lemma land_test : forall q a k, 0 <= k -> a = 2 ^ k -> negb (Z.land q a =? 0) = Z.testbit q k.
Proof.
  intros q a k K ->. rewrite land_bit by exact K. pose proof (Z.pow_pos_nonneg 2 k ltac:(lia) K). destruct (Z.testbit q k); cbn [bit]; [rewrite Z.mul_1_l; destruct (Z.eqb_spec (2 ^ k) 0); [lia | reflexivity] | reflexivity].
Qed.
Lemma lor_1 : forall v, 0 <= v -> Z.lor v 1 = 2 * (v / 2) + 1.
Proof.
  intros v V. pose proof (Z.mod_pos_bound v 2 ltac:(lia)) as M. pose proof (Z.div_mod v 2 ltac:(lia)) as D.
  assert (E : v = Z.lor (v mod 2) (v / 2 * 2 ^ 1)) by (rewrite lor_disj by (change (2 ^ 1) with 2; lia); change (2 ^ 1) with 2; lia).
  rewrite E at 1. rewrite Z.lor_comm, Z.lor_assoc. replace (Z.lor 1 (v mod 2)) with 1; [rewrite lor_disj by (change (2 ^ 1) with 2; lia); change (2 ^ 1) with 2; lia |].
  assert (v mod 2 = 0 \/ v mod 2 = 1) as [-> | ->] by lia; reflexivity.
Qed.

(** ** One sample *)

Definition enc (p : Z) (o : smp) : Z := match o with None => 0 | Some (s, mu) => (2 * mu + 1) * 2 ^ (p - 1) + bit s * 2 ^ 31 end.
Definition fits (p : Z) (o : smp) : Prop := match o with None => True | Some (_, mu) => 1 <= mu /\ 2 * mu + 1 < 2 ^ 31 /\ (2 * mu + 1) * 2 ^ (p - 1) < 2 ^ 31 end.
(** What is needed of [U] for a quad: it leaves room, and [e_k] leaves the sign. *)
Definition U_ok (p q U : Z) : Prop := 1 <= p <= 30 /\ 1 <= U /\ U + p <= 31 /\ (q_uoff q = true -> 2 <= U).

Lemma holds_long : forall buf f r M, fholds buf f r M -> f_bits f <= Z.of_nat (length M).
Proof. intros buf f r M (_ & (_ & pre & -> & L & _) & _). rewrite app_length. lia. Qed.

Lemma mag_ok : forall buf p q U n f M V sm need, Forall byte buf -> Fok buf f (8 + need) M -> good_e q -> (n < 4)%nat -> U_ok p q U -> q_sig q n = true ->
  exists s mu f' M', mag buf p q U (Z.of_nat n) f = Some (enc p (Some (s, mu)), 2 * mu - 1, f') /\
    one_sample q U n (mkSrc V sm M) = Some (Some (s, mu), mkSrc V sm M') /\ Fok buf f' need M' /\ fits p (Some (s, mu)).
Proof.
  intros buf p q U n f M V sm need B (r & H & L) (_ & G) N (Rp & U1 & U2 & U3) Sg. specialize (G n N). destruct G as (G1 & G2).
  destruct (frwd_fetch_ok buf f r M B H ltac:(lia)) as (f1 & r1 & E1 & H1 & L1 & B1). unfold mag. rewrite E1. rewrite shr_bit by lia. fold (q_ek q n).
  set (m := U - bit (q_ek q n)). assert (Rm : 1 <= m <= 30) by (unfold m; destruct (q_ek q n); cbn [bit]; [specialize (G2 eq_refl); specialize (U3 G2) |]; lia).
  rewrite u32_id by lia. destruct (frwd_advance_ok buf f1 r1 M m H1 ltac:(lia)) as (f2 & E2 & H2). rewrite E2.
  destruct (Z.ltb_spec 31 m); [lia |]. rewrite (u32_id (p - 1)) by lia. destruct (Z.ltb_spec 31 (p - 1)); [lia |]. cbn [orb]. cbv zeta.
  pose proof (holds_long _ _ _ _ H1) as LM. unfold one_sample. cbn [s_vlc s_mel s_ms]. rewrite Sg. fold m. cbv zeta. destruct (Nat.ltb_spec (length M) (Z.to_nat m)); [lia |].
  assert (P : 0 < 2 ^ m < 2 ^ 31). { split; [apply Z.pow_pos_nonneg; lia | apply Z.pow_lt_mono_r; lia]. }
  assert (Ea : Z.land (number (firstn 32 M)) (u32 (shl32 1 m - 1)) = number (firstn (Z.to_nat m) M)).
  { unfold shl32. rewrite (u32_id (Z.shiftl 1 m)) by (rewrite Z.shiftl_1_l; lia). rewrite u32_id by (rewrite Z.shiftl_1_l; lia). rewrite <- (Z2Nat.id m) at 1 by lia. rewrite number_mask, firstn_firstn. do 2 f_equal. lia. }
  assert (Eb : Z.shiftr (Z.land q (Z.shiftl 256 (Z.of_nat n))) (8 + Z.of_nat n) = bit (q_e1 q n)).
  { rewrite Z.shiftl_mul_pow2 by lia. change 256 with (2 ^ 8). rewrite <- Z.pow_add_r by lia. rewrite land_bit by lia. rewrite Z.shiftr_div_pow2 by lia. rewrite Z.div_mul by (apply Z.pow_nonzero; lia). reflexivity. }
  rewrite Ea, Eb. rewrite Z2Nat.id by lia. set (a := number (firstn (Z.to_nat m) M)).
  assert (Ra : 0 <= a < 2 ^ m). { unfold a. pose proof (number_small (firstn (Z.to_nat m) M)) as R. rewrite firstn_length, Nat.min_l, Z2Nat.id in R by lia. exact R. }
  assert (Ec : shl32 (bit (q_e1 q n)) m = bit (q_e1 q n) * 2 ^ m) by (unfold shl32; rewrite Z.shiftl_mul_pow2 by lia; apply u32_id; destruct (q_e1 q n); cbn [bit]; lia).
  rewrite Ec. rewrite lor_disj by lia. set (v := a + bit (q_e1 q n) * 2 ^ m). assert (Rv : 0 <= v < 2 ^ U).
  { unfold v. destruct (q_e1 q n) eqn:E; cbn [bit].
    - specialize (G1 eq_refl). replace U with (m + 1) by (unfold m; rewrite G1; cbn [bit]; lia). rewrite Z.pow_add_r by lia. change (2 ^ 1) with 2. lia.
    - assert (2 ^ m <= 2 ^ U) by (apply Z.pow_le_mono_r; [lia |]; unfold m; destruct (q_ek q n); cbn [bit]; lia). lia. }
  rewrite lor_1 by lia. set (mu := v / 2 + 1). assert (Rmu : 1 <= mu) by (unfold mu; pose proof (Z.div_pos v 2 ltac:(lia) ltac:(lia)); lia).
  assert (Ru : 2 * mu + 1 <= 2 ^ U + 1).
  { unfold mu. replace U with (U - 1 + 1) in Rv |- * by lia. rewrite Z.pow_add_r in Rv |- * by lia. change (2 ^ 1) with 2 in *. pose proof (Z.div_lt_upper_bound v 2 (2 ^ (U - 1)) ltac:(lia) ltac:(lia)). lia. }
  assert (Pp : 0 < 2 ^ (p - 1) <= 2 ^ 29). { split; [apply Z.pow_pos_nonneg; lia | apply Z.pow_le_mono_r; lia]. }
  assert (Rx : (2 * mu + 1) * 2 ^ (p - 1) < 2 ^ 31).
  { apply Z.le_lt_trans with ((2 ^ U + 1) * 2 ^ (p - 1)); [apply Z.mul_le_mono_nonneg_r; lia |]. rewrite Z.mul_add_distr_r, <- Z.pow_add_r by lia.
    assert (2 ^ (U + (p - 1)) <= 2 ^ 30) by (apply Z.pow_le_mono_r; lia). change (2 ^ 31) with (2 * 2 ^ 30). change (2 ^ 30) with (2 * 2 ^ 29) in *. lia. }
  assert (Rs : 2 * mu + 1 < 2 ^ 31). { apply Z.le_lt_trans with ((2 * mu + 1) * 2 ^ (p - 1)); [| exact Rx]. rewrite <- (Z.mul_1_r (2 * mu + 1)) at 1. apply Z.mul_le_mono_nonneg_l; lia. }
  exists (Z.odd v), mu, f2, (skipn (Z.to_nat m) M). split; [| split; [reflexivity | split; [exists r1; split; [exact H2 | lia] | cbn [fits]; auto]]].
  replace (2 * (v / 2) + 1) with (2 * mu - 1) by (unfold mu; lia). replace (2 * mu - 1 + 2) with (2 * mu + 1) by lia. rewrite (u32_id (2 * mu + 1)) by lia.
  do 3 f_equal. cbn [enc]. unfold shl32. rewrite (Z.shiftl_mul_pow2 (2 * mu + 1)) by lia. rewrite (u32_id ((2 * mu + 1) * 2 ^ (p - 1))) by lia.
  replace (u32 (Z.shiftl (number (firstn 32 M)) 31)) with (bit (Z.odd v) * 2 ^ 31); [rewrite Z.lor_comm; apply lor_disj; lia |].
  unfold u32. rewrite Z.shiftl_mul_pow2 by lia. change (2 ^ 32) with (2 * 2 ^ 31). rewrite Z.mul_mod_distr_r by lia. f_equal. rewrite Zmod_odd.
  replace (Z.odd (number (firstn 32 M))) with (Z.odd v); [destruct (Z.odd v); reflexivity |].
  unfold v, a. destruct M as [| b M]; [cbn [length] in *; lia |]. replace (Z.to_nat m) with (S (Z.to_nat (m - 1))) by lia. cbn [firstn]. rewrite !number_cons.
  replace (2 ^ m) with (2 * 2 ^ (m - 1)) by (rewrite <- (Z.pow_succ_r 2 (m - 1)) by lia; f_equal; lia). rewrite !Z.odd_add, !Z.odd_mul. cbn [Z.odd]. rewrite andb_false_r, !xorb_false_r. reflexivity.
Qed.

Definition wr (b : bool) (d : Z -> Z) (pos v : Z) : Z -> Z := if b then set d pos v else d.
Lemma sample_ok : forall buf p q U n locs k pos f data M V sm need (ins : bool), Forall byte buf -> Fok buf f (8 + need) M -> good_e q -> (n < 4)%nat -> U_ok p q U -> 0 <= k ->
  Z.testbit locs k = ins -> (q_sig q n = true -> ins = true) ->
  exists o f' M', sample buf p q U (Z.of_nat n) locs k pos f data = Some (match o with Some (_, mu) => Some (2 * mu - 1) | None => None end, f', wr ins data pos (enc p o)) /\
    one_sample q U n (mkSrc V sm M) = Some (o, mkSrc V sm M') /\ Fok buf f' need M' /\ fits p o.
Proof.
  intros buf p q U n locs k pos f data M V sm need ins B H G N Uo K I S. unfold sample.
  rewrite (land_test q _ (4 + Z.of_nat n)) by (try lia; rewrite Z.shiftl_mul_pow2 by lia; change 16 with (2 ^ 4); rewrite <- Z.pow_add_r by lia; reflexivity). fold (q_sig q n).
  destruct (q_sig q n) eqn:Sg.
  - destruct (mag_ok buf p q U n f M V sm need B H G N Uo Sg) as (s & mu & f' & M' & E1 & E2 & H' & F). rewrite E1. exists (Some (s, mu)), f', M'. rewrite (S eq_refl). split; [reflexivity |]. split; [exact E2 |]. split; [exact H' | exact F].
  - rewrite (land_test locs _ k) by (try lia; rewrite Z.shiftl_1_l; reflexivity). rewrite I. exists None, f, M. unfold one_sample. rewrite Sg.
    assert (H' : Fok buf f need M) by (destruct H as (r & H & L); exists r; split; [exact H | lia]).
    destruct ins; (split; [reflexivity | split; [reflexivity | split; [exact H' | exact Logic.I]]]).
Qed.

(** ** A quad *)

Definition mark (E : Z) : Z := if E =? 0 then 0 else 128 + E.
Lemma mark_low : forall E, 0 <= E < 128 -> Z.land (mark E) 127 = E.
Proof.
  intros E R. unfold mark. destruct (Z.eqb_spec E 0); [subst; reflexivity |]. rewrite land127. replace (128 + E) with (E + 1 * 128) by lia. rewrite Z.mod_add by lia. apply Z.mod_small, R.
Qed.
Lemma mark_put : forall E, 0 < E < 128 -> u8 (Z.lor 128 E) = mark E.
Proof.
  intros E R. unfold mark, u8. destruct (Z.eqb_spec E 0); [lia |]. rewrite Z.lor_comm. change 128 with (1 * 2 ^ 7). rewrite lor_disj by (change (2 ^ 7) with 128; lia). change 255 with (Z.ones 8). rewrite Z.land_ones by lia.
  rewrite Z.mod_small by (change (2 ^ 7) with 128; change (2 ^ 8) with 256; lia). lia.
Qed.
Lemma expo_range : forall p o, fits p o -> 0 <= expo o <= 31.
Proof.
  intros p [[s mu] |] F; cbn [expo fits] in *; [| lia]. destruct F as (F1 & F2 & _). pose proof (Z.log2_nonneg (2 * mu - 1)). assert (Z.log2 (2 * mu - 1) < 31) by (apply Z.log2_lt_pow2; lia). lia.
Qed.
Lemma clz_expo : forall p s mu, fits p (Some (s, mu)) -> u32 (32 - clz (2 * mu - 1)) = expo (Some (s, mu)).
Proof.
  intros p s mu F. pose proof (expo_range p _ F) as R. cbn [expo] in *. unfold clz. destruct F as (F1 & _). destruct (Z.eqb_spec (2 * mu - 1) 0); [lia |].
  replace (32 - (31 - Z.log2 (2 * mu - 1))) with (Z.log2 (2 * mu - 1) + 1) by lia. apply u32_id. lia.
Qed.
Lemma set_eq : forall m i v j, set m i v j = if j =? i then v else m j.
Proof. reflexivity. Qed.

Lemma quad_ok : forall first buf stride p q U locs k li sp f data ls M V sm need (ins : nat -> bool) Ep, Forall byte buf -> Fok buf f (32 + need) M -> good_e q -> U_ok p q U -> 0 <= k ->
  (forall n, (n < 4)%nat -> Z.testbit locs (k + Z.of_nat n) = ins n) -> (forall n, (n < 4)%nat -> q_sig q n = true -> ins n = true) ->
  ls li = mark Ep -> 0 <= Ep <= 31 -> (first = false -> ls (li + 1) = 0) ->
  exists a b c d f' ls' M', quad first buf stride p q U locs k li sp f data ls =
      Some (f', wr (ins 3%nat) (wr (ins 2%nat) (wr (ins 1%nat) (wr (ins 0%nat) data sp (enc p a)) (sp + stride) (enc p b)) (sp + 1) (enc p c)) (sp + 1 + stride) (enc p d), ls') /\
    quad_samples q U (mkSrc V sm M) = Some ([a; b; c; d], mkSrc V sm M') /\ Fok buf f' need M' /\ fits p a /\ fits p b /\ fits p c /\ fits p d /\
    (forall j, ls' j = if j =? li + 1 then mark (expo d) else if j =? li then mark (Z.max Ep (expo b)) else ls j).
Proof.
  intros first buf stride p q U locs k li sp f data ls M V sm need ins Ep B H G Uo K I S Ls RE L1. unfold quad, quad_samples.
  destruct (sample_ok buf p q U 0 locs k sp f data M V sm (24 + need) (ins 0%nat) B H G ltac:(lia) Uo ltac:(lia)) as (a & f1 & M1 & E1 & S1 & H1 & Fa).
  { rewrite <- (I 0%nat) by lia. f_equal. lia. } { apply S. lia. }
  cbn [Z.of_nat] in E1. rewrite E1, S1.
  destruct (sample_ok buf p q U 1 locs (k + 1) (sp + stride) f1 (wr (ins 0%nat) data sp (enc p a)) M1 V sm (16 + need) (ins 1%nat) B H1 G ltac:(lia) Uo ltac:(lia)) as (b & f2 & M2 & E2 & S2 & H2 & Fb).
  { apply (I 1%nat). lia. } { apply S. lia. }
  change (Z.of_nat 1) with 1 in E2. rewrite E2, S2.
  destruct (sample_ok buf p q U 2 locs (k + 2) (sp + 1) f2 (wr (ins 1%nat) (wr (ins 0%nat) data sp (enc p a)) (sp + stride) (enc p b)) M2 V sm (8 + need) (ins 2%nat) B H2 G ltac:(lia) Uo ltac:(lia)) as (c & f3 & M3 & E3 & S3 & H3 & Fc).
  { apply (I 2%nat). lia. } { apply S. lia. }
  change (Z.of_nat 2) with 2 in E3. rewrite E3, S3.
  destruct (sample_ok buf p q U 3 locs (k + 3) (sp + 1 + stride) f3 (wr (ins 2%nat) (wr (ins 1%nat) (wr (ins 0%nat) data sp (enc p a)) (sp + stride) (enc p b)) (sp + 1) (enc p c)) M3 V sm need (ins 3%nat) B H3 G ltac:(lia) Uo ltac:(lia)) as (d & f4 & M4 & E4 & S4 & H4 & Fd).
  { apply (I 3%nat). lia. } { apply S. lia. }
  change (Z.of_nat 3) with 3 in E4. rewrite E4, S4. clear E1 E2 E3 E4 S1 S2 S3 S4.
  exists a, b, c, d, f4. eexists. exists M4. split; [reflexivity |]. split; [reflexivity |]. split; [exact H4 |]. do 4 (split; [assumption |]).
  set (ls1 := match match b with Some (_, mu) => Some (2 * mu - 1) | None => None end with Some v => _ | None => ls end).
  assert (Q1 : forall j, ls1 j = if j =? li then mark (Z.max Ep (expo b)) else ls j).
  { intros j. unfold ls1. destruct b as [[s mu] |].
    - rewrite (clz_expo p s mu Fb), Ls, mark_low by lia. pose proof (expo_range p _ Fb) as R. assert (0 < expo (Some (s, mu))) by (cbn [expo]; pose proof (Z.log2_nonneg (2 * mu - 1)); lia).
      replace (if expo (Some (s, mu)) <? Ep then Ep else expo (Some (s, mu))) with (Z.max Ep (expo (Some (s, mu)))) by (destruct (Z.ltb_spec (expo (Some (s, mu))) Ep); lia).
      rewrite mark_put by lia. reflexivity.
    - cbn [expo]. rewrite Z.max_l by lia. destruct (Z.eqb_spec j li); [subst; exact Ls | reflexivity]. }
  clearbody ls1. set (ls2 := if first then set ls1 (li + 1) 0 else ls1).
  assert (Q2 : forall j, ls2 j = if j =? li + 1 then 0 else ls1 j).
  { intros j. unfold ls2. destruct first; [reflexivity |]. destruct (Z.eqb_spec j (li + 1)) as [-> |]; [| reflexivity]. rewrite Q1. destruct (Z.eqb_spec (li + 1) li); [lia |]. apply L1. reflexivity. }
  clearbody ls2. intros j. destruct d as [[s mu] |].
  - rewrite (clz_expo p s mu Fd). pose proof (expo_range p _ Fd) as R. assert (0 < expo (Some (s, mu))) by (cbn [expo]; pose proof (Z.log2_nonneg (2 * mu - 1)); lia).
    rewrite mark_put by lia. rewrite set_eq, Q2, Q1. destruct (Z.eqb_spec j (li + 1)); reflexivity.
  - rewrite Q2, Q1. reflexivity.
Qed.
