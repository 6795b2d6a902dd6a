(** MEL: what the register of the reader holds, and the events decoded. *)

From Coq Require Import ZArith List Bool Lia.
From Verif Require Import Ints HtModel HtSpec HtBits HtForward.
Import ListNotations.
Local Open Scope Z_scope.

Lemma u64_bit : forall x j, 0 <= j -> Z.testbit (u64 x) j = (j <? 64) && Z.testbit x j.
Proof.
  intros x j J. unfold u64. destruct (Z.ltb_spec j 64); [apply Z.mod_pow2_bits_low | apply Z.mod_pow2_bits_high]; lia.
Qed.
Lemma shl64_bit : forall x n j, 0 <= j -> Z.testbit (shl64 x n) j = (j <? 64) && Z.testbit x (j - n).
Proof. intros x n j J. unfold shl64. rewrite u64_bit, Z.shiftl_spec by exact J. reflexivity. Qed.
Lemma u64_range : forall x, 0 <= u64 x < 2 ^ 64.
Proof. intros x. apply Z.mod_pos_bound. reflexivity. Qed.

(** The register holds the first [bits] bits of [S] from the top. *)
Definition mholds (tmp bits : Z) (u : bool) (rest : list Z) (S : list bool) : Prop :=
  0 <= tmp < 2 ^ 64 /\ 0 <= bits <= 64 /\ exists pre, S = pre ++ mel_bits u rest /\ Z.of_nat (length pre) = bits /\
    (forall j, 0 <= j < bits -> Z.testbit tmp (63 - j) = nth (Z.to_nat j) pre false) /\
    (forall j, 0 <= j < 64 - bits -> Z.testbit tmp j = false) /\
    (u = true -> 0 < bits -> nth (Z.to_nat (bits - 1)) pre false = true).

Lemma rev_low_nth : forall n d j, (j < n)%nat -> nth j (rev (low_bits n d)) false = Z.testbit d (Z.of_nat (n - 1 - j)).
Proof.
  intros n d j J. rewrite rev_nth by (rewrite low_bits_length; exact J). rewrite low_bits_length. rewrite low_bits_nth by lia. f_equal. lia.
Qed.
Lemma mpush : forall tmp bits u d rest S, byte d -> mholds tmp bits u (d :: rest) S -> bits + (8 - one u) <= 64 ->
  mholds (Z.lor tmp (shl64 d (64 - bits - (8 - one u)))) (bits + (8 - one u)) (d =? 255) rest S.
Proof.
  intros tmp bits u d rest S D (T & Bi & pre & E & L & In & Out & Last) Hb. cbn [mel_bits] in E. pose proof (one_range u) as U.
  set (n := 8 - one u) in *. assert (Hn : 7 <= n <= 8) by lia.
  assert (Nn : (if u then 7 else 8)%nat = Z.to_nat n) by (unfold n; destruct u; reflexivity). rewrite Nn in E.
  split. { apply lor_small; [lia | exact T | apply u64_range]. }
  split; [lia |]. exists (pre ++ rev (low_bits (Z.to_nat n) d)). rewrite <- app_assoc. split; [exact E |].
  rewrite app_length, rev_length, low_bits_length. split; [lia |]. split; [| split].
  - intros j J. rewrite Z.lor_spec, shl64_bit by lia. destruct (Z.ltb_spec (63 - j) 64); [| lia]. cbn [andb]. destruct (Z.lt_ge_cases j bits) as [K | K].
    + rewrite In by lia. rewrite app_nth1 by lia. destruct (Z.lt_ge_cases (63 - j - (64 - bits - n)) 8) as [K8 | K8].
      * (* the last bit before, and a bit left out *)
        assert (Hj : j = bits - 1 /\ n = 7) by lia. destruct Hj as (-> & N7).
        rewrite Last; [reflexivity | destruct u; [reflexivity | cbn [one] in n; unfold n in N7; lia] | lia].
      * rewrite byte_high by (assumption || lia). apply orb_false_r.
    + rewrite (Out (63 - j)) by lia. cbn [orb]. rewrite app_nth2 by lia. rewrite rev_low_nth by lia. f_equal. lia.
  - intros j J. rewrite Z.lor_spec, shl64_bit by lia. rewrite Out by lia. rewrite Z.testbit_neg_r by lia. rewrite andb_false_r. reflexivity.
  - intros F _. apply Z.eqb_eq in F. subst d. rewrite app_nth2 by lia. rewrite rev_low_nth by lia.
    replace (Z.to_nat n - 1 - (Z.to_nat (bits + n - 1) - length pre))%nat with 0%nat by lia. reflexivity.
Qed.
Lemma mtake : forall tmp bits u rest S n, mholds tmp bits u rest S -> 0 <= n <= bits -> mholds (shl64 tmp n) (bits - n) u rest (skipn (Z.to_nat n) S).
Proof.
  intros tmp bits u rest S n (T & Bi & pre & E & L & In & Out & Last) N. split; [apply u64_range |]. split; [lia |].
  exists (skipn (Z.to_nat n) pre). subst S. rewrite skipn_app. replace (Z.to_nat n - length pre)%nat with 0%nat by lia. split; [reflexivity |].
  rewrite skipn_length. split; [lia |].
  assert (Sk : forall j, 0 <= j < bits - n -> nth (Z.to_nat j) (skipn (Z.to_nat n) pre) false = nth (Z.to_nat (j + n)) pre false).
  { intros j J. rewrite <- (firstn_skipn (Z.to_nat n) pre) at 2. rewrite app_nth2 by (rewrite firstn_length; lia). rewrite firstn_length. f_equal. lia. }
  split; [| split].
  - intros j J. rewrite shl64_bit by lia. destruct (Z.ltb_spec (63 - j) 64); [| lia]. cbn [andb]. rewrite Sk by lia. rewrite <- In by lia. f_equal. lia.
  - intros j J. rewrite shl64_bit by lia. destruct (Z.lt_ge_cases j n) as [K | K]; [rewrite Z.testbit_neg_r by lia; apply andb_false_r |].
    rewrite Out by lia. apply andb_false_r.
  - intros U P. rewrite Sk by lia. replace (bits - n - 1 + n) with (bits - 1) by lia. apply Last; [exact U | lia].
Qed.

(** The first bits as a number. *)
Fixpoint msb (acc : Z) (l : list bool) : Z := match l with [] => acc | b :: l => msb (2 * acc + if b then 1 else 0) l end.
Lemma msb_snoc : forall l acc b, msb acc (l ++ [b]) = 2 * msb acc l + if b then 1 else 0.
Proof. induction l as [| a l IH]; intros acc b; [reflexivity | apply IH]. Qed.
Lemma msb_acc : forall l acc, msb acc l = acc * 2 ^ Z.of_nat (length l) + msb 0 l.
Proof.
  induction l as [| b l IH]; intros acc; cbn [msb length]; [cbn; lia |]. rewrite IH, (IH (2 * 0 + _)). rewrite Nat2Z.inj_succ, Z.pow_succ_r by lia. destruct b; lia.
Qed.
Lemma msb_range : forall l, 0 <= msb 0 l < 2 ^ Z.of_nat (length l).
Proof.
  induction l as [| b l IH]; cbn [msb length]; [cbn; lia |]. rewrite msb_acc, Nat2Z.inj_succ, Z.pow_succ_r by lia. destruct b; lia.
Qed.
Lemma mtop : forall tmp bits u rest S, mholds tmp bits u rest S -> forall n, Z.of_nat n <= bits -> Z.shiftr tmp (64 - Z.of_nat n) = msb 0 (firstn n S).
Proof.
  intros tmp bits u rest S (T & Bi & pre & E & L & In & _). induction n as [| n IH]; intros Hn.
  { cbn [firstn msb]. rewrite Z.shiftr_div_pow2 by lia. apply Z.div_small. exact T. }
  assert (F : firstn (Datatypes.S n) S = firstn n S ++ [nth n S false]).
  { assert (G : (n < length S)%nat) by (subst S; rewrite app_length; lia). clear - G. revert S G. induction n as [| n IH]; intros [| b S] G; cbn [length] in G; try lia; [reflexivity |].
    cbn [firstn nth app]. f_equal. apply IH. lia. }
  rewrite F, msb_snoc, <- IH by lia. subst S. rewrite app_nth1 by lia. pose proof (In (Z.of_nat n) ltac:(lia)) as I. rewrite Nat2Z.id in I. rewrite <- I. clear IH I F.
  replace (64 - Z.of_nat (Datatypes.S n)) with (63 - Z.of_nat n) by lia. set (m := 63 - Z.of_nat n). assert (Hm : 0 <= m) by (unfold m; lia).
  replace (64 - Z.of_nat n) with (m + 1) by (unfold m; lia). rewrite <- (Z.shiftr_shiftr tmp m 1) by lia.
  pose proof (Z.div2_odd (Z.shiftr tmp m)) as O. rewrite <- Z.bit0_odd, Z.shiftr_spec, Z.add_0_l, Z.div2_spec in O by lia.
  rewrite O at 1. destruct (Z.testbit tmp m); reflexivity.
Qed.
Lemma take_msb_eq : forall n acc l, (n <= length l)%nat -> take_msb n acc l = Some (Z.to_nat (msb (Z.of_nat acc) (firstn n l)), skipn n l).
Proof.
  induction n as [| n IH]; intros acc l L; [cbn [take_msb firstn msb skipn]; rewrite Nat2Z.id; reflexivity |].
  destruct l as [| b l]; cbn [length] in L; [lia |]. cbn [take_msb firstn msb skipn]. rewrite IH by lia. do 4 f_equal. destruct b; lia.
Qed.

(** ** Reading *)

(** Bytes of a MEL segment from [data]. *)
Definition mseg (buf : list Z) (data size : Z) : list Z := fix_last (seg buf data size).

Lemma lor15_byte : forall d, byte d -> byte (Z.lor d 15).
Proof. intros d D. unfold byte in *. apply (lor_small d 15 8); lia. Qed.
Lemma mseg_nil : forall buf data size, size <= 0 -> mseg buf data size = [].
Proof. intros. unfold mseg. rewrite seg_nil by assumption. reflexivity. Qed.
Lemma mseg_one : forall buf data, Forall byte buf -> 0 <= data -> data + 1 <= Z.of_nat (length buf) ->
  exists d, byte_at buf data = Some d /\ mseg buf data 1 = [Z.lor d 15] /\ byte d.
Proof.
  intros buf data B D L. destruct (seg_cons buf data 1 B D ltac:(lia) L) as (d & E1 & E2 & E3). exists d. split; [exact E1 |]. split; [| exact E3].
  unfold mseg. rewrite E2, seg_nil by lia. reflexivity.
Qed.
Lemma mseg_cons : forall buf data size, Forall byte buf -> 0 <= data -> 1 < size -> data + size <= Z.of_nat (length buf) ->
  exists d, byte_at buf data = Some d /\ mseg buf data size = d :: mseg buf (data + 1) (size - 1) /\ byte d.
Proof.
  intros buf data size B D S L. destruct (seg_cons buf data size B D ltac:(lia) L) as (d & E1 & E2 & E3). exists d. split; [exact E1 |]. split; [| exact E3].
  unfold mseg. rewrite E2. destruct (seg_cons buf (data + 1) (size - 1) B ltac:(lia) ltac:(lia) ltac:(lia)) as (d' & _ & E2' & _). rewrite E2'. reflexivity.
Qed.

Definition msrc (buf : list Z) (data size : Z) (rest : list Z) : Prop :=
  0 <= data < Z.of_nat (length buf) /\ (0 < size -> data + size < Z.of_nat (length buf)) /\ exists N, rest = mseg buf data size ++ repeat 255 N.
Definition melst (buf : list Z) (m : mel) (rest : list Z) (S : list bool) : Prop :=
  msrc buf (m_data m) (m_size m) rest /\ mholds (m_tmp m) (m_bits m) (m_unstuff m) rest S.

Lemma full : byte 255.
Proof. unfold byte. lia. Qed.
Lemma mel_val_ok : forall buf m rest, Forall byte buf -> msrc buf (m_data m) (m_size m) rest -> (4 <= length rest)%nat ->
  exists a b c d data size rest', rest = a :: b :: c :: d :: rest' /\ byte a /\ byte b /\ byte c /\ byte d /\
    mel_val buf m = Some (of4 a b c d, data, size) /\ msrc buf data size rest'.
Proof.
  intros buf m rest B (D & R & N & E) L. unfold mel_val. pose proof full as XB. change 4294967295 with (of4 255 255 255 255).
  destruct (Z.ltb_spec 4 (m_size m)) as [K | K].
  - specialize (R ltac:(lia)).
    destruct (mseg_cons buf (m_data m) (m_size m) B ltac:(lia) ltac:(lia) ltac:(lia)) as (a & A1 & A2 & A3).
    destruct (mseg_cons buf (m_data m + 1) (m_size m - 1) B ltac:(lia) ltac:(lia) ltac:(lia)) as (b & B1 & B2 & B3).
    destruct (mseg_cons buf (m_data m + 1 + 1) (m_size m - 1 - 1) B ltac:(lia) ltac:(lia) ltac:(lia)) as (c & C1 & C2 & C3).
    destruct (mseg_cons buf (m_data m + 1 + 1 + 1) (m_size m - 1 - 1 - 1) B ltac:(lia) ltac:(lia) ltac:(lia)) as (d & D1 & D2 & D3).
    rewrite A2, B2, C2, D2 in E. cbn [app] in E.
    replace (m_data m + 1 + 1 + 1 + 1) with (m_data m + 4) in E by lia. replace (m_size m - 1 - 1 - 1 - 1) with (m_size m - 4) in E by lia.
    replace (m_data m + 1 + 1 + 1) with (m_data m + 3) in D1 by lia. replace (m_data m + 1 + 1) with (m_data m + 2) in C1 by lia.
    exists a, b, c, d, (m_data m + 4), (m_size m - 4). eexists. split; [exact E |]. do 4 (split; [assumption |]).
    split. { unfold read_le_uint32. rewrite A1, B1, C1, D1. reflexivity. }
    split; [lia |]. split; [lia |]. exists N. reflexivity.
  - destruct (Z.ltb_spec 0 (m_size m)) as [K2 | K2].
    + specialize (R ltac:(lia)).
      assert (Fin : forall n, msrc buf (m_data m + m_size m) 0 (repeat 255 n)).
      { intros n. split; [lia |]. split; [lia |]. exists n. rewrite mseg_nil by lia. reflexivity. }
      assert (Sz : m_size m = 1 \/ m_size m = 2 \/ m_size m = 3 \/ m_size m = 4) by lia.
      destruct Sz as [Sz | [Sz | [Sz | Sz]]]; rewrite Sz in *.
      * destruct (mseg_one buf (m_data m) B ltac:(lia) ltac:(lia)) as (a & A1 & A2 & A3). rewrite A2 in E. cbn [app] in E. subst rest. cbn [length] in L. rewrite repeat_length in L.
        do 3 (destruct N as [| N]; [lia |]). pose proof (lor15_byte a A3) as AB. exists (Z.lor a 15), 255, 255, 255, (m_data m + 1), 0. eexists.
        split; [reflexivity |]. do 4 (split; [assumption |]). split; [| apply Fin].
        change (Z.to_nat (1 - 1)) with 0%nat. cbn [put_up]. replace (m_data m + (1 - 1)) with (m_data m) by lia. rewrite A1. change (8 * (1 - 1)) with 0.
        rewrite (proj1 (puts _ _ _ _ _ XB XB XB XB AB)). reflexivity.
      * destruct (mseg_cons buf (m_data m) 2 B ltac:(lia) ltac:(lia) ltac:(lia)) as (a & A1 & A2 & A3). change (2 - 1) with 1 in A2.
        destruct (mseg_one buf (m_data m + 1) B ltac:(lia) ltac:(lia)) as (b & B1 & B2 & B3). rewrite A2, B2 in E. cbn [app] in E. subst rest. cbn [length] in L. rewrite repeat_length in L.
        do 2 (destruct N as [| N]; [lia |]). pose proof (lor15_byte b B3) as BB. exists a, (Z.lor b 15), 255, 255, (m_data m + 2), 0. eexists.
        split; [reflexivity |]. do 4 (split; [assumption |]). split; [| apply Fin].
        change (Z.to_nat (2 - 1)) with 1%nat. cbn [put_up]. change (2 - 1) with 1. rewrite A1, B1. change (8 * 1) with 8.
        rewrite (proj1 (puts _ _ _ _ a XB XB XB XB A3)). rewrite (proj1 (proj2 (puts a _ _ _ _ A3 XB XB XB BB))). reflexivity.
      * destruct (mseg_cons buf (m_data m) 3 B ltac:(lia) ltac:(lia) ltac:(lia)) as (a & A1 & A2 & A3). change (3 - 1) with 2 in A2.
        destruct (mseg_cons buf (m_data m + 1) 2 B ltac:(lia) ltac:(lia) ltac:(lia)) as (b & B1 & B2 & B3). change (2 - 1) with 1 in B2.
        destruct (mseg_one buf (m_data m + 1 + 1) B ltac:(lia) ltac:(lia)) as (c & C1 & C2 & C3). rewrite A2, B2, C2 in E. cbn [app] in E. subst rest. cbn [length] in L. rewrite repeat_length in L.
        destruct N as [| N]; [lia |]. pose proof (lor15_byte c C3) as CB. exists a, b, (Z.lor c 15), 255, (m_data m + 3), 0. eexists.
        split; [reflexivity |]. do 4 (split; [assumption |]). split; [| apply Fin].
        change (Z.to_nat (3 - 1)) with 2%nat. cbn [put_up]. change (3 - 1) with 2. replace (m_data m + 2) with (m_data m + 1 + 1) by lia. rewrite A1, B1, C1. change (8 * 2) with 16. change (0 + 8) with 8.
        rewrite (proj1 (puts _ _ _ _ a XB XB XB XB A3)). rewrite (proj1 (proj2 (puts a _ _ _ b A3 XB XB XB B3))). rewrite (proj1 (proj2 (proj2 (puts a b _ _ _ A3 B3 XB XB CB)))). reflexivity.
      * destruct (mseg_cons buf (m_data m) 4 B ltac:(lia) ltac:(lia) ltac:(lia)) as (a & A1 & A2 & A3). change (4 - 1) with 3 in A2.
        destruct (mseg_cons buf (m_data m + 1) 3 B ltac:(lia) ltac:(lia) ltac:(lia)) as (b & B1 & B2 & B3). change (3 - 1) with 2 in B2.
        destruct (mseg_cons buf (m_data m + 1 + 1) 2 B ltac:(lia) ltac:(lia) ltac:(lia)) as (c & C1 & C2 & C3). change (2 - 1) with 1 in C2.
        destruct (mseg_one buf (m_data m + 1 + 1 + 1) B ltac:(lia) ltac:(lia)) as (d & D1 & D2 & D3). rewrite A2, B2, C2, D2 in E. cbn [app] in E. subst rest.
        pose proof (lor15_byte d D3) as DB. exists a, b, c, (Z.lor d 15), (m_data m + 4), 0. eexists.
        split; [reflexivity |]. do 4 (split; [assumption |]). split; [| apply Fin].
        change (Z.to_nat (4 - 1)) with 3%nat. cbn [put_up]. change (4 - 1) with 3. replace (m_data m + 3) with (m_data m + 1 + 1 + 1) by lia. rewrite A1, B1, C1, D1. change (8 * 3) with 24. change (0 + 8) with 8. change (8 + 8) with 16.
        rewrite (proj1 (puts _ _ _ _ a XB XB XB XB A3)). rewrite (proj1 (proj2 (puts a _ _ _ b A3 XB XB XB B3))). rewrite (proj1 (proj2 (proj2 (puts a b _ _ c A3 B3 XB XB C3)))).
        rewrite (proj2 (proj2 (proj2 (puts a b c _ _ A3 B3 C3 XB DB)))). reflexivity.
    + rewrite mseg_nil in E by lia. cbn [app] in E. subst rest. rewrite repeat_length in L. do 4 (destruct N as [| N]; [lia |]).
      exists 255, 255, 255, 255, (m_data m), (m_size m). eexists. split; [reflexivity |]. do 4 (split; [assumption |]).
      split; [reflexivity |]. split; [lia |]. split; [lia |]. exists N. rewrite mseg_nil by lia. reflexivity.
Qed.

Lemma shl64_lor : forall a b n, shl64 (Z.lor a b) n = Z.lor (shl64 a n) (shl64 b n).
Proof.
  intros a b n. apply Z.bits_inj'. intros j J. rewrite Z.lor_spec, !shl64_bit, Z.lor_spec by exact J. apply andb_orb_distrib_r.
Qed.
Lemma shl64_shl : forall a k n, 0 <= k -> 0 <= n -> shl64 (Z.shiftl a k) n = shl64 a (k + n).
Proof. intros a k n K N. unfold shl64. rewrite Z.shiftl_shiftl by exact K. reflexivity. Qed.

Lemma mel_read_ok : forall buf m rest S, Forall byte buf -> melst buf m rest S -> (4 <= length rest)%nat -> m_bits m <= 32 ->
  exists m' rest', mel_read buf m = Some m' /\ melst buf m' rest' S /\ length rest = (4 + length rest')%nat /\ m_bits m + 28 <= m_bits m' /\
    m_k m' = m_k m /\ m_num m' = m_num m /\ m_runs m' = m_runs m.
Proof.
  intros buf m rest S B (Sr & H) L Bi. pose proof (proj1 (proj2 H)) as Bp.
  destruct (mel_val_ok buf m rest B Sr L) as (a & b & c & d & data & size & rest' & E & Ba & Bb & Bc & Bd & V & Sr').
  unfold mel_read. destruct (Z.ltb_spec 32 (m_bits m)); [lia |]. rewrite V.
  destruct (lanes a b c d Ba Bb Bc Bd) as (L0 & L8 & L16 & L24 & _). rewrite L0, L8, L16, L24. subst rest. cbn zeta.
  pose proof (one_range (m_unstuff m)) as R0. pose proof (one_range (a =? 255)) as R1. pose proof (one_range (b =? 255)) as R2. pose proof (one_range (c =? 255)) as R3.
  set (n0 := 8 - one (m_unstuff m)) in *. set (n1 := 8 - one (a =? 255)) in *. set (n2 := 8 - one (b =? 255)) in *. set (n3 := 8 - one (c =? 255)) in *.
  assert (T1 : shl32 a n1 = Z.shiftl a n1) by (apply shl32_byte; [exact Ba | lia]).
  assert (G1 : 0 <= Z.lor (Z.shiftl a n1) b < 2 ^ 16) by (apply lor_small; [lia | apply (shl_small a n1 8 16); unfold byte in *; lia | unfold byte in *; lia]).
  assert (T2 : shl32 (Z.lor (Z.shiftl a n1) b) n2 = Z.shiftl (Z.lor (Z.shiftl a n1) b) n2).
  { unfold shl32. apply u32_id. apply (shl_small _ n2 16 32); lia. }
  assert (G2 : 0 <= Z.lor (Z.shiftl (Z.lor (Z.shiftl a n1) b) n2) c < 2 ^ 24).
  { apply lor_small; [lia | apply (shl_small _ n2 16 24); lia | unfold byte in *; lia]. }
  assert (T3 : shl32 (Z.lor (Z.shiftl (Z.lor (Z.shiftl a n1) b) n2) c) n3 = Z.shiftl (Z.lor (Z.shiftl (Z.lor (Z.shiftl a n1) b) n2) c) n3).
  { unfold shl32. apply u32_id. apply (shl_small _ n3 24 32); lia. }
  rewrite T1, T2, T3.
  replace (32 - one (m_unstuff m) - one (a =? 255) - one (b =? 255) - one (c =? 255)) with (n0 + n1 + n2 + n3) by (unfold n0, n1, n2, n3; lia).
  assert (Hn : 7 <= n0 <= 8 /\ 7 <= n1 <= 8 /\ 7 <= n2 <= 8 /\ 7 <= n3 <= 8) by (unfold n0, n1, n2, n3; lia).
  set (s := 64 - (n0 + n1 + n2 + n3) - m_bits m). assert (Hs : 0 <= s) by (unfold s; lia).
  pose proof (mpush _ _ _ _ _ _ Ba H ltac:(fold n0; lia)) as H1. fold n0 in H1.
  pose proof (mpush _ _ _ _ _ _ Bb H1 ltac:(fold n1; lia)) as H2. fold n1 in H2.
  pose proof (mpush _ _ _ _ _ _ Bc H2 ltac:(fold n2; lia)) as H3. fold n2 in H3.
  pose proof (mpush _ _ _ _ _ _ Bd H3 ltac:(fold n3; lia)) as H4. fold n3 in H4. clear H1 H2 H3.
  replace (64 - m_bits m - n0) with (n1 + (n2 + (n3 + s))) in H4 by (unfold s; lia).
  replace (64 - (m_bits m + n0) - n1) with (n2 + (n3 + s)) in H4 by (unfold s; lia).
  replace (64 - (m_bits m + n0 + n1) - n2) with (n3 + s) in H4 by (unfold s; lia).
  replace (64 - (m_bits m + n0 + n1 + n2) - n3) with s in H4 by (unfold s; lia).
  replace (m_bits m + n0 + n1 + n2 + n3) with (m_bits m + (n0 + n1 + n2 + n3)) in H4 by lia.
  clearbody s n0 n1 n2 n3. eexists. exists rest'. split; [reflexivity |]. cbn [m_bits m_k m_num m_runs]. split.
  - split; [exact Sr' |]. cbn [m_tmp m_bits m_unstuff].
    rewrite !shl64_lor, !shl64_shl, !shl64_lor, !shl64_shl, !shl64_lor, !shl64_shl by lia. rewrite !Z.lor_assoc. exact H4.
  - split; [reflexivity |]. split; [lia |]. auto.
Qed.
