(** Small integers and their binary32 patterns. *)

From Coq Require Import ZArith List Bool Lia.
From Verif Require Import Ints CmtModel CmtSpec.
Import ListNotations.
Local Open Scope Z_scope.

Lemma f32_int_bits : forall v, Z.abs v <= 2 ^ 24 -> float_bits v (f32_int v).
Proof.
  intros v H. unfold float_bits. destruct (Z.eq_dec v 0) as [-> | N]; [left; split; reflexivity | right]. split; [exact N |].
  set (a := Z.abs v) in *. assert (Ha : 0 < a) by lia. pose proof (Z.log2_spec a Ha) as [L1 L2]. set (k := Z.log2 a) in *.
  assert (Hk0 : 0 <= k) by apply Z.log2_nonneg.
  assert (Hk : k <= 24). { change 24 with (Z.log2 (2 ^ 24)). apply Z.log2_le_mono. exact H. }
  unfold f32_int, f32_of. fold a. destruct (Z.eqb_spec a 0); [lia |]. fold k. rewrite Z.add_0_r.
  replace (Z.max (k - 23) (-149)) with (k - 23) by lia. cbv zeta.
  assert (S1 : Z.succ k = k + 1) by lia. rewrite S1 in L2. rewrite Z.pow_add_r in L2 by lia. change (2 ^ 1) with 2 in L2.
  assert (Fin : forall r, 2 ^ 23 <= r < 2 ^ 24 -> r * 2 ^ k = a * 2 ^ 23 -> exists k0 m, 0 <= k0 /\ 2 ^ 23 <= m < 2 ^ 24 /\ m * 2 ^ k0 = a * 2 ^ 23 /\
    (if v <? 0 then 2 ^ 31 else 0) + Z.min (255 * 2 ^ 23) (if r <? 2 ^ 23 then r else (k - 23 + 150) * 2 ^ 23 + (r - 2 ^ 23)) =
    (if v <? 0 then 2 ^ 31 else 0) + (k0 + 127) * 2 ^ 23 + (m - 2 ^ 23)).
  { intros r R1 R2. exists k, r. split; [exact Hk0 |]. split; [exact R1 |]. split; [exact R2 |].
    destruct (Z.ltb_spec r (2 ^ 23)); [lia |]. change (2 ^ 23) with 8388608 in *. change (2 ^ 24) with 16777216 in *. lia. }
  destruct (Z.leb_spec (k - 23) 0) as [Q | Q]; apply Fin.
  - replace (0 - (k - 23)) with (23 - k) by lia. assert (P : 2 ^ 23 = 2 ^ k * 2 ^ (23 - k)) by (rewrite <- Z.pow_add_r by lia; f_equal; lia).
    assert (P24 : 2 ^ 24 = 2 * 2 ^ 23) by reflexivity. rewrite P24. assert (P0 : 0 < 2 ^ (23 - k)) by (apply Z.pow_pos_nonneg; lia).
    rewrite P. nia.
  - replace (0 - (k - 23)) with (23 - k) by lia. rewrite <- Z.mul_assoc, <- Z.pow_add_r by lia. f_equal. f_equal. lia.
  - assert (E : k = 24) by lia. rewrite E in *. change (2 ^ 24) with 16777216 in *. assert (a = 16777216) by lia. subst a. rewrite H0. cbn. split; [discriminate | reflexivity].
  - assert (E : k = 24) by lia. rewrite E in *. change (2 ^ 24) with 16777216 in *. assert (a = 16777216) by lia. rewrite H0. reflexivity.
Qed.

Lemma bits_back : forall v b, Z.abs v <= 2 ^ 24 -> float_bits v b -> i32_of_f32 b = v /\ 0 <= b < 2 ^ 32.
Proof.
  intros v b H [[-> ->] | (N & k & m & Hk0 & Hm & E & Eb)]; [split; [reflexivity | split; [lia | reflexivity]] |].
  set (a := Z.abs v) in *.
  assert (Hk : k <= 24).
  { destruct (Z.le_gt_cases k 24) as [Q | Q]; [exact Q |]. assert (2 ^ 25 <= 2 ^ k) by (apply Z.pow_le_mono_r; lia).
    change (2 ^ 25) with 33554432 in *. change (2 ^ 24) with 16777216 in *. change (2 ^ 23) with 8388608 in *. nia. }
  assert (Hneg : (2 ^ 31 <=? b) = (v <? 0)).
  { rewrite Eb. change (2 ^ 31) with 2147483648. change (2 ^ 23) with 8388608 in *. change (2 ^ 24) with 16777216 in *.
    destruct (v <? 0); [apply Z.leb_le | apply Z.leb_gt]; lia. }
  set (s := if v <? 0 then 1 else 0). assert (Hs : s = 0 \/ s = 1) by (unfold s; destruct (v <? 0); lia).
  assert (Eb2 : b = (256 * s + (k + 127)) * 2 ^ 23 + (m - 2 ^ 23)).
  { rewrite Eb. unfold s. change (2 ^ 31) with 2147483648. change (2 ^ 23) with 8388608. destruct (v <? 0); lia. }
  assert (Hq : b / 2 ^ 23 = 256 * s + (k + 127)).
  { rewrite Eb2. rewrite Z.div_add_l by (change (2 ^ 23) with 8388608; lia). rewrite Z.div_small; [lia |]. change (2 ^ 24) with (2 * 2 ^ 23) in Hm. lia. }
  assert (Hr : b mod 2 ^ 23 = m - 2 ^ 23).
  { rewrite Eb2. rewrite (Z.add_comm _ (m - 2 ^ 23)), Z.mod_add by (change (2 ^ 23) with 8388608; lia). apply Z.mod_small. change (2 ^ 24) with (2 * 2 ^ 23) in Hm. lia. }
  split.
  - unfold i32_of_f32. rewrite Hneg, Hq, Hr. cbv zeta.
    replace ((256 * s + (k + 127)) mod 256) with (k + 127).
    2: { rewrite (Z.mul_comm 256), (Z.add_comm _ (k + 127)), Z.mod_add by lia. symmetry. apply Z.mod_small. lia. }
    destruct (Z.eqb_spec (k + 127) 255); [lia |]. destruct (Z.eqb_spec (k + 127) 0); [lia |].
    replace (2 ^ 23 + (m - 2 ^ 23)) with m by lia. unfold to_i32.
    assert (V : (if 0 <=? k + 127 - 150 then m * 2 ^ (k + 127 - 150) else m / 2 ^ (- (k + 127 - 150))) = a).
    { destruct (Z.leb_spec 0 (k + 127 - 150)).
      - replace (k + 127 - 150) with (k - 23) by lia. assert (P : 2 ^ k = 2 ^ (k - 23) * 2 ^ 23) by (rewrite <- Z.pow_add_r by lia; f_equal; lia).
        rewrite P, Z.mul_assoc in E. apply Z.mul_reg_r in E; [exact E | discriminate].
      - replace (- (k + 127 - 150)) with (23 - k) by lia. assert (P : 2 ^ 23 = 2 ^ (23 - k) * 2 ^ k) by (rewrite <- Z.pow_add_r by lia; f_equal; lia).
        rewrite P, Z.mul_assoc in E. apply Z.mul_reg_r in E; [| apply Z.pow_nonzero; lia]. rewrite E. apply Z.div_mul. apply Z.pow_nonzero; lia. }
    rewrite V. change (2 ^ 31) with 2147483648. change (2 ^ 24) with 16777216 in H. destruct (Z.ltb_spec v 0); lia.
  - rewrite Eb2. change (2 ^ 32) with 4294967296. change (2 ^ 23) with 8388608 in *. change (2 ^ 24) with 16777216 in *. lia.
Qed.
