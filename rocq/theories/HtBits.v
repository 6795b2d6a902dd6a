(** Collecting bits from bytes, lowest bit first. *)

From Coq Require Import ZArith List Bool Lia.
From Verif Require Import Ints HtModel HtSpec.
Import ListNotations.
Local Open Scope Z_scope.

Lemma one_range : forall b, 0 <= one b <= 1.
Proof. intros []; cbn [one]; lia. Qed.

Definition byte (d : Z) : Prop := 0 <= d < 256.

Lemma byte_high : forall d j, byte d -> 8 <= j -> Z.testbit d j = false.
Proof.
  intros d j H L. unfold byte in H. destruct (Z.eq_dec d 0) as [-> | N]; [apply Z.bits_0 |].
  apply Z.bits_above_log2; [lia |]. apply Z.lt_le_trans with 8; [| exact L]. apply Z.log2_lt_pow2; [lia | exact (proj2 H)].
Qed.
Lemma small_high : forall d n j, 0 <= d < 2 ^ n -> 0 <= n <= j -> Z.testbit d j = false.
Proof.
  intros d n j H L. destruct (Z.eq_dec d 0) as [-> | N]; [apply Z.bits_0 |].
  apply Z.bits_above_log2; [lia |]. apply Z.lt_le_trans with n; [| lia]. apply Z.log2_lt_pow2; lia.
Qed.
Lemma small_of_bits : forall d n, 0 <= d -> 0 <= n -> (forall j, n <= j -> Z.testbit d j = false) -> d < 2 ^ n.
Proof.
  intros d n H N B. destruct (Z.eq_dec d 0) as [-> | D]; [apply Z.pow_pos_nonneg; lia |].
  apply Z.log2_lt_pow2; [lia |]. destruct (Z.lt_ge_cases (Z.log2 d) n) as [L | L]; [exact L |].
  specialize (B _ L). rewrite Z.bit_log2 in B by lia. discriminate.
Qed.
Lemma lor_small : forall a b n, 0 <= n -> 0 <= a < 2 ^ n -> 0 <= b < 2 ^ n -> 0 <= Z.lor a b < 2 ^ n.
Proof.
  intros a b n N A B. split; [apply Z.lor_nonneg; lia |]. apply small_of_bits; [apply Z.lor_nonneg; lia | exact N |].
  intros j J. rewrite Z.lor_spec, !(small_high _ n) by lia. reflexivity.
Qed.
Lemma shl_small : forall d n a b, 0 <= d < 2 ^ a -> 0 <= a -> 0 <= n -> a + n <= b -> 0 <= Z.shiftl d n < 2 ^ b.
Proof.
  intros d n a b D A N B. rewrite Z.shiftl_mul_pow2 by exact N. pose proof (Z.pow_pos_nonneg 2 n ltac:(lia) N) as P.
  pose proof (Z.pow_le_mono_r 2 (a + n) b ltac:(lia) B) as Q. rewrite Z.pow_add_r in Q by lia. nia.
Qed.
Lemma shl32_byte : forall d n, byte d -> 0 <= n <= 24 -> shl32 d n = Z.shiftl d n.
Proof. intros d n D N. unfold shl32. apply u32_id. apply (shl_small d n 8 32); unfold byte in D; lia. Qed.
Lemma shl64_byte : forall d n, byte d -> 0 <= n <= 56 -> shl64 d n = Z.shiftl d n.
Proof. intros d n D N. unfold shl64. apply u64_id. apply (shl_small d n 8 64); unfold byte in D; lia. Qed.
Lemma shl64_word : forall t n, 0 <= t < 2 ^ 32 -> 0 <= n <= 32 -> shl64 t n = Z.shiftl t n.
Proof. intros t n T N. unfold shl64. apply u64_id. apply (shl_small t n 32 64); lia. Qed.

(** ** Four bytes in a word *)

Definition of4 (a b c d : Z) : Z := Z.lor a (Z.lor (Z.shiftl b 8) (Z.lor (Z.shiftl c 16) (Z.shiftl d 24))).

Lemma of4_bit : forall a b c d j, byte a -> byte b -> byte c -> byte d -> 0 <= j ->
  Z.testbit (of4 a b c d) j = if j <? 8 then Z.testbit a j else if j <? 16 then Z.testbit b (j - 8) else if j <? 24 then Z.testbit c (j - 16) else Z.testbit d (j - 24).
Proof.
  intros a b c d j A B C D J. unfold of4. rewrite !Z.lor_spec, !Z.shiftl_spec by exact J.
  destruct (Z.ltb_spec j 8) as [L | L].
  { rewrite (Z.testbit_neg_r b), (Z.testbit_neg_r c), (Z.testbit_neg_r d) by lia. rewrite !orb_false_r. reflexivity. }
  rewrite (byte_high a) by (assumption || lia). destruct (Z.ltb_spec j 16) as [L2 | L2].
  { rewrite (Z.testbit_neg_r c), (Z.testbit_neg_r d) by lia. rewrite !orb_false_r. reflexivity. }
  rewrite (byte_high b) by (assumption || lia). destruct (Z.ltb_spec j 24) as [L3 | L3].
  { rewrite (Z.testbit_neg_r d) by lia. rewrite !orb_false_r. reflexivity. }
  rewrite (byte_high c) by (assumption || lia). reflexivity.
Qed.
Lemma land255 : forall x, Z.land x 255 = x mod 256.
Proof. intros x. change 255 with (Z.ones 8). rewrite Z.land_ones by lia. reflexivity. Qed.
Lemma land255_bit : forall x j, 0 <= j -> Z.testbit (Z.land x 255) j = (j <? 8) && Z.testbit x j.
Proof.
  intros x j J. change 255 with (Z.ones 8). rewrite Z.land_spec, Z.testbit_ones_nonneg by lia. apply andb_comm.
Qed.
Lemma lane_bit : forall v i j, 0 <= i -> 0 <= j -> Z.testbit (lane v i) j = (j <? 8) && Z.testbit v (j + i).
Proof. intros v i j I J. unfold lane. rewrite land255_bit by exact J. rewrite Z.shiftr_spec by exact J. reflexivity. Qed.
Lemma lane_byte : forall v i, byte (lane v i).
Proof. intros v i. unfold lane, byte. rewrite land255. apply Z.mod_pos_bound. reflexivity. Qed.

Ltac decide_ltb := repeat match goal with |- context [?x <? ?y] => destruct (Z.ltb_spec x y); try lia end.
Lemma lanes : forall a b c d, byte a -> byte b -> byte c -> byte d ->
  lane (of4 a b c d) 0 = a /\ lane (of4 a b c d) 8 = b /\ lane (of4 a b c d) 16 = c /\ lane (of4 a b c d) 24 = d /\ Z.shiftr (of4 a b c d) 24 = d.
Proof.
  intros a b c d A B C D. repeat split; apply Z.bits_inj'; intros j J; rewrite ?lane_bit, ?Z.shiftr_spec, ?of4_bit by (assumption || lia).
  all: decide_ltb; cbn [andb]; rewrite ?(byte_high a), ?(byte_high b), ?(byte_high c), ?(byte_high d) by (assumption || lia); try reflexivity; f_equal; lia.
Qed.

Lemma not32_bit : forall i j, i = 0 \/ i = 8 \/ i = 16 \/ i = 24 -> 0 <= j -> Z.testbit (not32 (shl32 255 i)) j = (j <? 32) && negb ((i <=? j) && (j <? i + 8)).
Proof.
  intros i j I J. destruct (Z.ltb_spec j 32) as [L | L].
  - cbn [andb]. assert (H : forall n, (n < 32)%nat -> forall k, k = 0 \/ k = 8 \/ k = 16 \/ k = 24 -> Z.testbit (not32 (shl32 255 k)) (Z.of_nat n) = negb ((k <=? Z.of_nat n) && (Z.of_nat n <? k + 8))).
    { intros n Hn k K. do 32 (destruct n as [| n]; [destruct K as [-> | [-> | [-> | ->]]]; reflexivity |]). lia. }
    specialize (H (Z.to_nat j) ltac:(lia) i I). rewrite Z2Nat.id in H by exact J. exact H.
  - apply (small_high _ 32); [| lia]. destruct I as [-> | [-> | [-> | ->]]]; vm_compute; split; congruence.
Qed.
Lemma put_bit : forall v i d j, 0 <= v < 2 ^ 32 -> byte d -> i = 0 \/ i = 8 \/ i = 16 \/ i = 24 -> 0 <= j ->
  Z.testbit (put v i d) j = if (i <=? j) && (j <? i + 8) then Z.testbit d (j - i) else Z.testbit v j.
Proof.
  intros v i d j V D I J. unfold put. rewrite Z.lor_spec, Z.land_spec, not32_bit by assumption. rewrite shl32_byte by (assumption || lia).
  rewrite Z.shiftl_spec by exact J. destruct (Z.ltb_spec j 32) as [L | L].
  - destruct (Z.leb_spec i j) as [P | P]; destruct (Z.ltb_spec j (i + 8)) as [Q | Q]; cbn [andb negb].
    + rewrite andb_false_r. reflexivity.
    + rewrite (byte_high d) by (assumption || lia). rewrite andb_true_r, orb_false_r. reflexivity.
    + rewrite (Z.testbit_neg_r d) by lia. rewrite andb_true_r, orb_false_r. reflexivity.
    + rewrite (Z.testbit_neg_r d) by lia. rewrite andb_true_r, orb_false_r. reflexivity.
  - rewrite (small_high v 32) by lia. rewrite (byte_high d) by (assumption || lia). cbn [andb orb].
    destruct (Z.ltb_spec j (i + 8)); [lia |]. rewrite andb_false_r. reflexivity.
Qed.
Lemma of4_range : forall a b c d, byte a -> byte b -> byte c -> byte d -> 0 <= of4 a b c d < 2 ^ 32.
Proof.
  intros a b c d A B C D. assert (0 <= of4 a b c d).
  { unfold of4, byte in *. repeat (apply Z.lor_nonneg; split); try lia; apply Z.shiftl_nonneg; lia. }
  split; [assumption |]. apply small_of_bits; [assumption | lia |]. intros j J. rewrite of4_bit by (assumption || lia). decide_ltb.
  apply byte_high; [assumption | lia].
Qed.
Lemma puts : forall a b c d v, byte a -> byte b -> byte c -> byte d -> byte v ->
  put (of4 a b c d) 0 v = of4 v b c d /\ put (of4 a b c d) 8 v = of4 a v c d /\ put (of4 a b c d) 16 v = of4 a b v d /\ put (of4 a b c d) 24 v = of4 a b c v.
Proof.
  intros a b c d v A B C D V. pose proof (of4_range a b c d A B C D) as R.
  repeat split; apply Z.bits_inj'; intros j J; rewrite put_bit, !of4_bit by (assumption || lia); decide_ltb;
    repeat match goal with |- context [?x <=? ?y] => destruct (Z.leb_spec x y); try lia end; cbn [andb]; try reflexivity; try (f_equal; lia).
  all: rewrite ?(byte_high d), ?(byte_high v) by (assumption || lia); reflexivity.
Qed.
Lemma fill_of4 : 4294967295 = of4 255 255 255 255 /\ 0 = of4 0 0 0 0.
Proof. split; reflexivity. Qed.

(** ** A register of bits *)

Section Collect.
(** Whether the highest bit of a byte is left out, and what is known for the next. *)
Variable drop : bool -> Z -> bool.
Variable flag : Z -> bool.

Fixpoint stream (u : bool) (l : list Z) : list bool :=
  match l with [] => [] | d :: l => low_bits (if drop u d then 7 else 8) d ++ stream (flag d) l end.
Definition next_one (l : list Z) : Prop := match l with [] => True | d :: _ => Z.testbit d 0 = true end.
(** A bit left out is zero, or is taken for the next, which is one. *)
Fixpoint clean (u : bool) (l : list Z) : Prop :=
  match l with [] => True | d :: l => (drop u d = true -> Z.testbit d 7 = true -> next_one l) /\ clean (flag d) l end.

Lemma low_bits_length : forall n d, length (low_bits n d) = n.
Proof. intros. unfold low_bits. rewrite map_length, seq_length. reflexivity. Qed.
Lemma low_bits_nth : forall n d j, (j < n)%nat -> nth j (low_bits n d) false = Z.testbit d (Z.of_nat j).
Proof.
  intros n d j J. unfold low_bits. rewrite (nth_indep _ false (Z.testbit d (Z.of_nat 0))) by (rewrite map_length, seq_length; exact J).
  rewrite (map_nth (fun i => Z.testbit d (Z.of_nat i))), seq_nth by exact J. reflexivity.
Qed.

(** The register holds the first [bits] bits of [S], the others are in [rest]. *)
Definition holds (tmp bits : Z) (u : bool) (rest : list Z) (S : list bool) : Prop :=
  0 <= tmp /\ exists pre, S = pre ++ stream u rest /\ Z.of_nat (length pre) = bits /\
    (forall j, 0 <= j < bits -> Z.testbit tmp j = nth (Z.to_nat j) pre false) /\
    (forall j, bits <= j -> Z.testbit tmp j = true -> j = bits /\ next_one rest).

Lemma push : forall tmp bits u d rest S, byte d -> holds tmp bits u (d :: rest) S -> clean u (d :: rest) ->
  holds (Z.lor tmp (Z.shiftl d bits)) (bits + (8 - one (drop u d))) (flag d) rest S.
Proof.
  intros tmp bits u d rest S D (T & pre & E & L & In & Out) (C & _). cbn [stream] in E.
  assert (B : 0 <= bits) by lia. pose proof (one_range (drop u d)) as R.
  split. { apply Z.lor_nonneg. split; [exact T |]. apply Z.shiftl_nonneg. unfold byte in D. lia. }
  exists (pre ++ low_bits (if drop u d then 7 else 8) d). rewrite <- app_assoc. split; [exact E |]. rewrite app_length, low_bits_length.
  split; [destruct (drop u d); cbn [one]; lia |]. split.
  - intros j J. rewrite Z.lor_spec, Z.shiftl_spec by lia. destruct (Z.lt_ge_cases j bits) as [K | K].
    + rewrite In by lia. rewrite (Z.testbit_neg_r d) by lia. rewrite orb_false_r, app_nth1 by lia. reflexivity.
    + rewrite app_nth2 by lia. rewrite low_bits_nth by (destruct (drop u d); cbn [one] in *; lia).
      replace (Z.of_nat (Z.to_nat j - length pre)) with (j - bits) by lia.
      destruct (Z.testbit tmp j) eqn:X; [| reflexivity]. destruct (Out j K X) as (-> & N). cbn [next_one] in N. rewrite Z.sub_diag, N. reflexivity.
  - intros j J X. rewrite Z.lor_spec, Z.shiftl_spec in X by lia.
    destruct (Z.testbit tmp j) eqn:Y.
    { destruct (Out j ltac:(lia) Y) as (-> & _). lia. }
    cbn [orb] in X. destruct (Z.lt_ge_cases (j - bits) 8) as [K | K]; [| rewrite byte_high in X by assumption; discriminate].
    destruct (drop u d) eqn:F; cbn [one] in *; [| lia]. assert (j - bits = 7) by lia. rewrite H in X. split; [lia | exact (C eq_refl X)].
Qed.
Lemma take : forall tmp bits u rest S n, holds tmp bits u rest S -> 0 <= n <= bits -> holds (Z.shiftr tmp n) (bits - n) u rest (skipn (Z.to_nat n) S).
Proof.
  intros tmp bits u rest S n (T & pre & E & L & In & Out) N. split; [apply Z.shiftr_nonneg; exact T |].
  exists (skipn (Z.to_nat n) pre). subst S. rewrite skipn_app. replace (Z.to_nat n - length pre)%nat with 0%nat by lia. split; [reflexivity |].
  rewrite skipn_length. split; [lia |]. split.
  - intros j J. rewrite Z.shiftr_spec, In by lia. rewrite <- (firstn_skipn (Z.to_nat n) pre) at 1.
    rewrite app_nth2 by (rewrite firstn_length; lia). rewrite firstn_length. f_equal. lia.
  - intros j J X. rewrite Z.shiftr_spec in X by lia. destruct (Out (j + n) ltac:(lia) X). split; [lia | assumption].
Qed.

Lemma number_bit : forall l j, Z.testbit (number l) (Z.of_nat j) = nth j l false.
Proof.
  induction l as [| b l IH]; intros j; [destruct j; apply Z.bits_0 |]. cbn [number].
  destruct j as [| j]; cbn [nth]. { rewrite Z.bit0_odd, Z.odd_add, Z.odd_mul. destruct b; reflexivity. }
  rewrite Nat2Z.inj_succ. replace ((if b then 1 else 0) + 2 * number l) with (2 * number l + Z.b2z b) by (destruct b; cbn [Z.b2z]; lia).
  rewrite Z.testbit_succ_r by lia. apply IH.
Qed.
Lemma number_nonneg : forall l, 0 <= number l.
Proof. induction l as [| b l IH]; cbn [number]; [lia | destruct b; lia]. Qed.
(** The lowest [n] bits of the register. *)
Lemma head : forall tmp bits u rest S n, holds tmp bits u rest S -> 0 <= n <= bits -> tmp mod 2 ^ n = number (firstn (Z.to_nat n) S).
Proof.
  intros tmp bits u rest S n (T & pre & E & L & In & Out) N. apply Z.bits_inj'. intros j J.
  rewrite <- (Z2Nat.id j J) at 2. rewrite number_bit. destruct (Z.lt_ge_cases j n) as [K | K].
  - rewrite Z.mod_pow2_bits_low by lia. rewrite In by lia. subst S. rewrite firstn_app. replace (Z.to_nat n - length pre)%nat with 0%nat by lia. cbn [firstn].
    rewrite app_nil_r. rewrite <- (firstn_skipn (Z.to_nat n) pre) at 1. rewrite app_nth1 by (rewrite firstn_length; lia). reflexivity.
  - rewrite Z.mod_pow2_bits_high by lia. rewrite nth_overflow; [reflexivity |]. rewrite firstn_length. lia.
Qed.
Lemma holds_bits : forall tmp bits u rest S, holds tmp bits u rest S -> 0 <= bits.
Proof. intros tmp bits u rest S (_ & pre & _ & L & _). lia. Qed.
Lemma holds_start : forall u l, holds 0 0 u l (stream u l).
Proof.
  intros u l. split; [lia |]. exists []. split; [reflexivity |]. split; [reflexivity |]. split; intros j J; [lia |]. rewrite Z.bits_0. discriminate.
Qed.

(** Four bytes at once. *)
Definition lens (u : bool) (a b c d : Z) : Z :=
  (8 - one (drop u a)) + (8 - one (drop (flag a) b)) + (8 - one (drop (flag b) c)) + (8 - one (drop (flag c) d)).
Lemma lens_range : forall u a b c d, 28 <= lens u a b c d <= 32.
Proof. intros. unfold lens. destruct (drop u a), (drop (flag a) b), (drop (flag b) c), (drop (flag c) d); cbn [one]; lia. Qed.
Lemma push4 : forall tmp bits u a b c d rest S, byte a -> byte b -> byte c -> byte d -> 0 <= bits <= 32 ->
  holds tmp bits u (a :: b :: c :: d :: rest) S -> clean u (a :: b :: c :: d :: rest) ->
  let n1 := 8 - one (drop u a) in let n2 := n1 + (8 - one (drop (flag a) b)) in let n3 := n2 + (8 - one (drop (flag b) c)) in
  let t := Z.lor (Z.lor (Z.lor a (shl32 b n1)) (shl32 c n2)) (shl32 d n3) in
  holds (Z.lor tmp (shl64 t bits)) (u32 (bits + (n3 + (8 - one (drop (flag c) d))))) (flag d) rest S.
Proof.
  intros tmp bits u a b c d rest S A B C D Bi H Cl n1 n2 n3 t.
  assert (E1 : n1 = 8 - one (drop u a)) by reflexivity.
  assert (E2 : n2 = n1 + (8 - one (drop (flag a) b))) by reflexivity.
  assert (E3 : n3 = n2 + (8 - one (drop (flag b) c))) by reflexivity.
  pose proof (one_range (drop u a)) as R1. pose proof (one_range (drop (flag a) b)) as R2. pose proof (one_range (drop (flag b) c)) as R3. pose proof (one_range (drop (flag c) d)) as R4.
  destruct Cl as (C1 & C2 & C3 & C4 & C5).
  pose proof (push _ _ _ _ _ _ A H (conj C1 (conj C2 (conj C3 (conj C4 C5))))) as H1.
  pose proof (push _ _ _ _ _ _ B H1 (conj C2 (conj C3 (conj C4 C5)))) as H2.
  pose proof (push _ _ _ _ _ _ C H2 (conj C3 (conj C4 C5))) as H3.
  pose proof (push _ _ _ _ _ _ D H3 (conj C4 C5)) as H4. clear H1 H2 H3 C1 C2 C3 C4 C5 H.
  subst t. clearbody n1 n2 n3.
  replace (bits + (8 - one (drop u a)) + (8 - one (drop (flag a) b)) + (8 - one (drop (flag b) c))) with (n3 + bits) in H4 by lia.
  replace (bits + (8 - one (drop u a)) + (8 - one (drop (flag a) b))) with (n2 + bits) in H4 by lia.
  replace (bits + (8 - one (drop u a))) with (n1 + bits) in H4 by lia.
  replace (n3 + bits + (8 - one (drop (flag c) d))) with (bits + (n3 + (8 - one (drop (flag c) d)))) in H4 by lia.
  rewrite u32_id by lia.
  assert (Tr : 0 <= Z.lor (Z.lor (Z.lor a (Z.shiftl b n1)) (Z.shiftl c n2)) (Z.shiftl d n3) < 2 ^ 32).
  { unfold byte in *. repeat apply lor_small; try lia; apply (shl_small _ _ 8 32); lia. }
  rewrite !shl32_byte by (assumption || lia). rewrite shl64_word by (assumption || lia).
  rewrite !Z.shiftl_lor, !Z.shiftl_shiftl by lia. rewrite !Z.lor_assoc. exact H4.
Qed.
End Collect.
