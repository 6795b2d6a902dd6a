(** MEL: the start of the reader, runs and events. *)

From Coq Require Import ZArith List Bool Lia.
From Verif Require Import Ints ZBits HtModel HtSpec HtBits HtForward HtMel.
Import ListNotations.
Local Open Scope Z_scope.

(** ** Start *)

Lemma byte_at_nth : forall buf i, 0 <= i < Z.of_nat (length buf) -> byte_at buf i = Some (nth (Z.to_nat i) buf 0).
Proof. intros buf i I. unfold byte_at. destruct (Z.ltb_spec i 0); [lia |]. apply nth_error_nth'. lia. Qed.

Lemma shl64_u64 : forall x k, 0 <= k -> shl64 (u64 x) k = shl64 x k.
Proof.
  intros x k K. apply Z.bits_inj'. intros j J. rewrite !shl64_bit by exact J. destruct (Z.ltb_spec j 64); [| reflexivity]. cbn [andb].
  destruct (Z.lt_ge_cases j k); [rewrite !Z.testbit_neg_r by lia; reflexivity |]. rewrite u64_bit by lia. destruct (Z.ltb_spec (j - k) 64); [reflexivity | lia].
Qed.

(** Before the last shift: the register low aligned. *)
Definition lowst (buf : list Z) (m : mel) (rest : list Z) (S : list bool) : Prop :=
  msrc buf (m_data m) (m_size m) rest /\ mholds (shl64 (m_tmp m) (64 - m_bits m)) (m_bits m) (m_unstuff m) rest S.

Lemma msrc_cons : forall buf data size rest, Forall byte buf -> msrc buf data size rest -> rest <> [] ->
  exists d rest', rest = (if size =? 1 then Z.lor d 15 else d) :: rest' /\ byte d /\ (if 0 <? size then byte_at buf data else Some 255) = Some d /\
    msrc buf (if 0 <? size then data + 1 else data) (size - 1) rest'.
Proof.
  intros buf data size rest B (D & R & N & E) Ne. destruct (Z.ltb_spec 0 size) as [K | K].
  - specialize (R K). destruct (Z.eqb_spec size 1) as [-> | K1].
    + destruct (mseg_one buf data B ltac:(lia) ltac:(lia)) as (d & E1 & E2 & E3). rewrite E2 in E. cbn [app] in E. exists d. eexists. split; [exact E |]. split; [exact E3 |]. split; [exact E1 |].
      split; [lia |]. split; [lia |]. exists N. rewrite mseg_nil by lia. reflexivity.
    + destruct (mseg_cons buf data size B ltac:(lia) ltac:(lia) ltac:(lia)) as (d & E1 & E2 & E3). rewrite E2 in E. cbn [app] in E. exists d. eexists. split; [exact E |]. split; [exact E3 |]. split; [exact E1 |].
      split; [lia |]. split; [lia |]. exists N. reflexivity.
  - rewrite mseg_nil in E by lia. cbn [app] in E. destruct N as [| N]; [contradiction Ne; exact E |]. cbn [repeat] in E. exists 255, (repeat 255 N).
    destruct (Z.eqb_spec size 1); [lia |]. split; [exact E |]. split; [apply full |]. split; [reflexivity |]. split; [lia |]. split; [lia |]. exists N. rewrite mseg_nil by lia. reflexivity.
Qed.
Lemma land255_byte : forall d, byte d -> Z.land d 255 = d.
Proof. intros d D. rewrite land255. apply Z.mod_small. exact D. Qed.

Lemma mel_start_ok : forall buf n m rest S, Forall byte buf -> lowst buf m rest S -> m_bits m + 8 * Z.of_nat n <= 64 -> (n <= length rest)%nat ->
  match mel_start buf n m with
  | None => False
  | Some None => True
  | Some (Some m') => exists rest', lowst buf m' rest' S /\ length rest = (n + length rest')%nat /\ m_bits m' <= m_bits m + 8 * Z.of_nat n /\
      m_k m' = m_k m /\ m_num m' = m_num m /\ m_runs m' = m_runs m
  end.
Proof.
  intros buf. induction n as [| n IH]; intros m rest S B (Sr & H) Bi L; cbn [mel_start].
  { exists rest. split; [split; assumption |]. split; [reflexivity |]. split; [lia |]. auto. }
  assert (X : exists x, (if m_unstuff m then byte_at buf (m_data m) else Some 0) = Some x).
  { destruct (m_unstuff m); [| eauto]. rewrite byte_at_nth by (apply Sr). eauto. }
  destruct X as (x & X). rewrite X. destruct (143 <? x); [exact I |].
  destruct (msrc_cons _ _ _ _ B Sr) as (d & rest' & E & Db & Ed & Sr'). { intros ->. cbn [length] in L. lia. }
  rewrite Ed. set (d' := if m_size m =? 1 then Z.lor d 15 else d) in *. cbn zeta.
  assert (Db' : byte d') by (unfold d'; destruct (m_size m =? 1); [apply lor15_byte |]; exact Db). clearbody d'. rewrite E in H, L. cbn [length] in L.
  pose proof (one_range (m_unstuff m)) as U. pose proof (mpush _ _ _ _ _ _ Db' H ltac:(lia)) as H'. pose proof (proj1 (proj2 H)) as Bp.
  rewrite (land255_byte d' Db').
  set (m1 := mkMel _ _ _ _ _ _ _ _). assert (H1 : lowst buf m1 rest' S).
  { split; [exact Sr' |]. cbn [m_tmp m_bits m_unstuff m1]. unfold m1. cbn [m_tmp m_bits m_unstuff]. rewrite shl64_lor.
    unfold shl64 at 2. rewrite shl64_u64, shl64_shl by lia.
    replace (64 - (m_bits m + (8 - one (m_unstuff m)))) with (64 - m_bits m - (8 - one (m_unstuff m))) by lia.
    replace (8 - one (m_unstuff m) + (64 - m_bits m - (8 - one (m_unstuff m)))) with (64 - m_bits m) by lia. exact H'. }
  specialize (IH m1 rest' S B H1). subst rest. cbn [length]. assert (Eb : m_bits m1 = m_bits m + (8 - one (m_unstuff m))) by reflexivity.
  specialize (IH ltac:(lia) ltac:(lia)). destruct (mel_start buf n m1) as [[m' |] |]; [| exact I | exact IH].
  destruct IH as (r & A1 & A2 & A3 & A4 & A5 & A6). exists r. split; [exact A1 |]. split; [lia |]. split; [lia |]. auto.
Qed.
Lemma mel_start_accept : forall buf lcup n m, Forall byte buf -> 0 <= m_data m -> m_data m + Z.max 0 (m_size m) = lcup - 1 -> lcup <= Z.of_nat (length buf) ->
  (forall i, m_data m <= i < lcup - 2 -> nth (Z.to_nat i) buf 0 = 255 -> nth (Z.to_nat (i + 1)) buf 0 <= 143) -> nth (Z.to_nat (lcup - 1)) buf 0 <= 143 ->
  (m_unstuff m = true -> nth (Z.to_nat (m_data m)) buf 0 <= 143) -> mel_start buf n m <> Some None.
Proof.
  intros buf lcup. induction n as [| n IH]; intros m B D E L T X U; cbn [mel_start]; [discriminate |].
  assert (XX : (if m_unstuff m then byte_at buf (m_data m) else Some 0) = Some (if m_unstuff m then nth (Z.to_nat (m_data m)) buf 0 else 0)).
  { destruct (m_unstuff m); [apply byte_at_nth; lia | reflexivity]. }
  rewrite XX. assert (Q : (if m_unstuff m then nth (Z.to_nat (m_data m)) buf 0 else 0) <= 143) by (destruct (m_unstuff m); [apply U; reflexivity | lia]).
  destruct (Z.ltb_spec 143 (if m_unstuff m then nth (Z.to_nat (m_data m)) buf 0 else 0)); [lia |].
  assert (Bd : byte (nth (Z.to_nat (m_data m)) buf 0)). { rewrite Forall_forall in B. apply B, nth_In. lia. }
  destruct (Z.ltb_spec 0 (m_size m)) as [K | K].
  - rewrite byte_at_nth by lia. cbn zeta. apply IH; cbn [m_data m_size m_unstuff]; try assumption; try lia; [intros i I; apply T; lia |].
    intros F. destruct (Z.eqb_spec (m_size m) 1) as [S1 | S1].
    + replace (m_data m + 1) with (lcup - 1) by lia. exact X.
    + apply T; [lia |]. rewrite (land255_byte _ Bd) in F. apply Z.eqb_eq. exact F.
  - cbn zeta. apply IH; cbn [m_data m_size m_unstuff]; try assumption; try lia. intros _. replace (m_data m) with (lcup - 1) by lia. exact X.
Qed.

(** ** Runs *)

Definition exp (k : nat) : nat := nth k mel_E 0%nat.
(** A code [c] of a run from bits [S] in state [k]. *)
Definition mstep (k : nat) (S : list bool) (c : Z) (k' : nat) (S' : list bool) : Prop :=
  match S with
  | [] => False
  | true :: l => c = 2 * (2 ^ Z.of_nat (exp k) - 1) /\ k' = Nat.min 12 (k + 1) /\ S' = l
  | false :: l => exists r, take_msb (exp k) 0 l = Some (r, S') /\ c = 2 * Z.of_nat r + 1 /\ k' = (k - 1)%nat
  end.
Fixpoint chain (k : nat) (S : list bool) (q : list Z) (k' : nat) (S' : list bool) : Prop :=
  match q with [] => k' = k /\ S' = S | c :: q => exists k1 S1, mstep k S c k1 S1 /\ chain k1 S1 q k' S' end.
Lemma chain_snoc : forall q k S k1 S1 c k2 S2, chain k S q k1 S1 -> mstep k1 S1 c k2 S2 -> chain k S (q ++ [c]) k2 S2.
Proof.
  induction q as [| c0 q IH]; intros k S k1 S1 c k2 S2 H M; cbn [chain app] in *.
  - destruct H as (-> & ->). exists k2, S2. split; [exact M |]. split; reflexivity.
  - destruct H as (k0 & S0 & M0 & H). exists k0, S0. split; [exact M0 |]. eapply IH; eassumption.
Qed.
Fixpoint pack (q : list Z) : Z := match q with [] => 0 | c :: q => c + 128 * pack q end.
Definition small (c : Z) : Prop := 0 <= c < 64.
Lemma pack_range : forall q, Forall small q -> 0 <= pack q < 2 ^ (7 * Z.of_nat (length q)).
Proof.
  induction q as [| c q IH]; intros F; cbn [pack length]; [cbn; lia |]. inversion F as [| ? ? C F']; subst. specialize (IH F'). unfold small in C.
  replace (7 * Z.of_nat (S (length q))) with (7 + 7 * Z.of_nat (length q)) by lia. rewrite Z.pow_add_r by lia. change (2 ^ 7) with 128. lia.
Qed.
Lemma pack_snoc : forall q c, pack (q ++ [c]) = pack q + c * 2 ^ (7 * Z.of_nat (length q)).
Proof.
  induction q as [| c0 q IH]; intros c; cbn [pack app length]; [cbn; lia |]. rewrite IH. replace (7 * Z.of_nat (S (length q))) with (7 + 7 * Z.of_nat (length q)) by lia.
  rewrite Z.pow_add_r by lia. change (2 ^ 7) with 128. lia.
Qed.
Lemma keep : forall runs at_ num, 0 <= num < 8 -> at_ = num * 7 -> 0 <= runs < 2 ^ at_ -> Z.land runs (18446744073709551615 - shl64 63 at_) = runs.
Proof.
  intros runs at_ num N A R. assert (E : Z.land (Z.ones at_) (18446744073709551615 - shl64 63 at_) = Z.ones at_).
  { assert (C : num = 0 \/ num = 1 \/ num = 2 \/ num = 3 \/ num = 4 \/ num = 5 \/ num = 6 \/ num = 7) by lia.
    subst at_. clear R. destruct C as [-> | [-> | [-> | [-> | [-> | [-> | [-> | ->]]]]]]]; reflexivity. }
  assert (G : Z.land runs (Z.ones at_) = runs) by (rewrite Z.land_ones by lia; apply Z.mod_small; exact R).
  rewrite <- G at 1. rewrite <- Z.land_assoc, E. exact G.
Qed.
Lemma pack_store : forall q c, Forall small q -> small c -> (length q < 8)%nat ->
  Z.lor (Z.land (pack q) (18446744073709551615 - shl64 63 (Z.of_nat (length q) * 7))) (shl64 c (Z.of_nat (length q) * 7)) = pack (q ++ [c]).
Proof.
  intros q c F C L. pose proof (pack_range q F) as R. rewrite (keep (pack q) _ (Z.of_nat (length q))); [| lia | reflexivity | replace (Z.of_nat (length q) * 7) with (7 * Z.of_nat (length q)) by lia; exact R].
  rewrite pack_snoc. unfold shl64. rewrite Z.shiftl_mul_pow2 by lia. replace (Z.of_nat (length q) * 7) with (7 * Z.of_nat (length q)) by lia.
  unfold small in C. assert (P : 0 < 2 ^ (7 * Z.of_nat (length q)) <= 2 ^ 49) by (split; [apply Z.pow_pos_nonneg; lia | apply Z.pow_le_mono_r; lia]).
  unfold u64. rewrite Z.mod_small by nia. rewrite Z.lor_comm, lor_add by lia. lia.
Qed.

(** Reader with queue [q] of run codes, from bits [S0] in state [k0]. *)
Definition queue (buf : list Z) (m : mel) (rest : list Z) (k0 : nat) (S0 : list bool) (q : list Z) : Prop :=
  exists k S, melst buf m rest S /\ m_k m = Z.of_nat k /\ (k <= 12)%nat /\ m_num m = Z.of_nat (length q) /\ (length q <= 8)%nat /\
    Forall small q /\ m_runs m = pack q /\ chain k0 S0 q k S.

Lemma exps : forall k, (k <= 12)%nat -> nth_error mel_exp k = Some (Z.of_nat (exp k)) /\ (exp k <= 5)%nat.
Proof. intros k K. do 13 (destruct k as [| k]; [split; [reflexivity | cbn; lia] |]). lia. Qed.

Lemma round : forall buf n m rest k0 S0 q, queue buf m rest k0 S0 q -> 6 <= m_bits m -> (length q < 8)%nat ->
  exists m' c, mel_loop (S n) m = mel_loop n m' /\ queue buf m' rest k0 S0 (q ++ [c]).
Proof.
  intros buf n m rest k0 S0 q (k & S & (Sr & H) & Ek & Hk & En & Hn & F & Er & Ch) Hb Hl.
  cbn [mel_loop]. destruct (Z.leb_spec 6 (m_bits m)); [| lia]. destruct (Z.ltb_spec (m_num m) 8); [| lia]. cbn [andb].
  destruct (exps k Hk) as (Ee & He). rewrite Ek, Nat2Z.id, Ee. set (e := exp k) in *.
  destruct S as [| b S1] eqn:ES.
  { exfalso. destruct H as (_ & _ & pre & E & L & _). destruct pre; [cbn [length] in L; lia | discriminate]. }
  assert (Hbit : negb (Z.land (m_tmp m) (shl64 1 63) =? 0) = b).
  { destruct H as (T & _ & pre & E & L & In & _). specialize (In 0 ltac:(lia)). destruct pre as [| b' pre]; [cbn [length] in L; lia |]. cbn [app] in E. injection E as <- _.
    change (Z.to_nat 0) with 0%nat in In. cbn [nth] in In. change (63 - 0) with 63 in In. change (shl64 1 63) with (2 ^ 63). rewrite <- In.
    destruct (Z.eqb_spec (Z.land (m_tmp m) (2 ^ 63)) 0) as [Z0 | Z0]; cbn [negb].
    - assert (Q : Z.testbit (Z.land (m_tmp m) (2 ^ 63)) 63 = false) by (rewrite Z0; apply Z.bits_0). rewrite Z.land_spec, Z.pow2_bits_true, andb_true_r in Q by lia. symmetry. exact Q.
    - destruct (Z.testbit (m_tmp m) 63) eqn:Q; [reflexivity |]. exfalso. apply Z0. apply Z.bits_inj'. intros j J. rewrite Z.land_spec, Z.bits_0, Z.pow2_bits_eqb by lia.
      destruct (Z.eqb_spec 63 j) as [<- |]; [rewrite Q; reflexivity | apply andb_false_r]. }
  rewrite Hbit. assert (Ms : Z.shiftl 1 (Z.of_nat e) - 1 = Z.ones (Z.of_nat e)) by (unfold Z.ones; lia).
  destruct b.
  - cbn zeta. eexists. exists (2 * (2 ^ Z.of_nat e - 1)). split; [reflexivity |].
    assert (P : 1 <= 2 ^ Z.of_nat e <= 2 ^ 5) by (split; [change 1 with (2 ^ 0) |]; apply Z.pow_le_mono_r; lia).
    assert (C : small (2 * (2 ^ Z.of_nat e - 1))) by (unfold small; lia).
    assert (Er' : Z.shiftl (Z.shiftl 1 (Z.of_nat e) - 1) 1 = 2 * (2 ^ Z.of_nat e - 1)) by (rewrite !Z.shiftl_mul_pow2 by lia; lia).
    exists (Nat.min 12 (k + 1)), S1. split. { split; [exact Sr |]. cbn [m_tmp m_bits m_unstuff]. apply (mtake _ _ _ _ _ 1 H). lia. }
    cbn [m_k m_num m_runs]. split. { destruct (Z.ltb_spec (Z.of_nat k + 1) 12); lia. } split; [lia |]. rewrite app_length. cbn [length]. split; [lia |]. split; [lia |].
    split. { apply Forall_app. split; [exact F | constructor; [exact C | constructor]]. }
    split. { rewrite Er', Er, En. apply pack_store; assumption. }
    eapply chain_snoc; [exact Ch |]. cbn [mstep]. auto.
  - cbn zeta. set (l := firstn e S1).
    assert (Ln : (e <= length S1)%nat). { destruct H as (_ & _ & pre & E & L & _). assert (Q : (length (false :: S1) >= length pre)%nat) by (rewrite E, app_length; lia). cbn [length] in Q. lia. }
    assert (Er' : Z.land (Z.shiftr (m_tmp m) (63 - Z.of_nat e)) (Z.shiftl 1 (Z.of_nat e) - 1) = msb 0 l).
    { rewrite Ms, Z.land_ones by lia. pose proof (mtop _ _ _ _ _ H (Datatypes.S e) ltac:(lia)) as Q. replace (64 - Z.of_nat (Datatypes.S e)) with (63 - Z.of_nat e) in Q by lia.
      rewrite Q. cbn [firstn msb]. change (2 * 0 + 0) with 0. fold l. apply Z.mod_small. pose proof (msb_range l) as R. unfold l in R at 3. rewrite firstn_length_le in R by exact Ln. exact R. }
    pose proof (msb_range l) as R. unfold l in R at 3. rewrite firstn_length_le in R by exact Ln.
    assert (P : 2 ^ Z.of_nat e <= 2 ^ 5) by (apply Z.pow_le_mono_r; lia). change (2 ^ 5) with 32 in P.
    eexists. exists (2 * msb 0 l + 1). split; [reflexivity |].
    assert (C : small (2 * msb 0 l + 1)) by (unfold small; lia).
    exists (k - 1)%nat, (skipn e S1). split.
    { split; [exact Sr |]. cbn [m_tmp m_bits m_unstuff]. pose proof (mtake _ _ _ _ _ (Z.of_nat e + 1) H ltac:(lia)) as Q.
      replace (Z.to_nat (Z.of_nat e + 1)) with (Datatypes.S e) in Q by lia. exact Q. }
    cbn [m_k m_num m_runs]. split. { destruct (Z.ltb_spec 0 (Z.of_nat k - 1)); lia. } split; [lia |]. rewrite app_length. cbn [length]. split; [lia |]. split; [lia |].
    split. { apply Forall_app. split; [exact F | constructor; [exact C | constructor]]. }
    split. { rewrite Er', Er, En. rewrite Z.shiftl_mul_pow2 by lia. change (2 ^ 1) with 2. rewrite (Z.mul_comm (msb 0 l) 2). apply pack_store; assumption. }
    eapply chain_snoc; [exact Ch |]. cbn [mstep]. exists (Z.to_nat (msb 0 l)). fold e. rewrite take_msb_eq by exact Ln. change (Z.of_nat 0) with 0. fold l.
    split; [reflexivity |]. split; [lia | reflexivity].
Qed.
Lemma loop_ok : forall buf n m rest k0 S0 q, queue buf m rest k0 S0 q -> exists m' q', mel_loop n m = Some m' /\ queue buf m' rest k0 S0 (q ++ q').
Proof.
  intros buf. induction n as [| n IH]; intros m rest k0 S0 q H.
  { exists m, []. rewrite app_nil_r. split; [reflexivity | exact H]. }
  destruct (Z.leb_spec 6 (m_bits m)) as [K | K]; [destruct (Nat.lt_ge_cases (length q) 8) as [L | L] |].
  - destruct (round buf n m rest k0 S0 q H K L) as (m1 & c & E & H1). rewrite E. destruct (IH m1 rest k0 S0 _ H1) as (m' & q' & E' & H'). exists m', (c :: q').
    split; [exact E' |]. rewrite <- app_assoc in H'. exact H'.
  - exists m, []. rewrite app_nil_r. split; [| exact H]. cbn [mel_loop]. destruct H as (k & S & _ & _ & _ & En & _). destruct (Z.ltb_spec (m_num m) 8); [lia |]. rewrite andb_false_r. reflexivity.
  - exists m, []. rewrite app_nil_r. split; [| exact H]. cbn [mel_loop]. destruct (Z.leb_spec 6 (m_bits m)); [lia |]. reflexivity.
Qed.
Lemma decode_ok : forall buf m rest k0 S0, Forall byte buf -> queue buf m rest k0 S0 [] -> (4 <= length rest)%nat ->
  exists m' rest' c q, mel_decode buf m = Some m' /\ queue buf m' rest' k0 S0 (c :: q) /\ (length rest <= 4 + length rest')%nat.
Proof.
  intros buf m rest k0 S0 B H L. unfold mel_decode.
  assert (P : exists m1 rest1, (if m_bits m <? 6 then mel_read buf m else Some m) = Some m1 /\ queue buf m1 rest1 k0 S0 [] /\ 6 <= m_bits m1 /\ (length rest <= 4 + length rest1)%nat).
  { destruct (Z.ltb_spec (m_bits m) 6) as [K | K]; [| exists m, rest; split; [reflexivity |]; split; [exact H |]; split; [exact K | lia]].
    destruct H as (k & S & M & Ek & Hk & En & Hn & F & Er & Ch). destruct (mel_read_ok buf m rest S B M L ltac:(lia)) as (m1 & rest1 & E & M1 & L1 & Bi & A1 & A2 & A3).
    exists m1, rest1. split; [exact E |]. split.
    - exists k, S. rewrite A1, A2, A3. split; [exact M1 |]. auto 8.
    - split; [| lia]. destruct M as (_ & _ & Bp & _). lia. }
  destruct P as (m1 & rest1 & E & H1 & K & L1). rewrite E.
  destruct (round buf 7 m1 rest1 k0 S0 [] H1 K ltac:(cbn; lia)) as (m2 & c & E2 & H2). cbn [app] in H2.
  destruct (loop_ok buf 7 m2 rest1 k0 S0 [c] H2) as (m' & q & E3 & H3). exists m', rest1, c, q. rewrite E2. split; [exact E3 |]. split; [exact H3 | exact L1].
Qed.
Lemma get_run_ok : forall buf m rest k0 S0 q, Forall byte buf -> queue buf m rest k0 S0 q -> (4 <= length rest)%nat ->
  exists c m' rest' q' k1 S1, mel_get_run buf m = Some (c, m') /\ mstep k0 S0 c k1 S1 /\ queue buf m' rest' k1 S1 q' /\ (length rest <= 4 + length rest')%nat.
Proof.
  intros buf m rest k0 S0 q B H L. unfold mel_get_run.
  assert (P : exists m1 rest1 c q, (if m_num m =? 0 then mel_decode buf m else Some m) = Some m1 /\ queue buf m1 rest1 k0 S0 (c :: q) /\ (length rest <= 4 + length rest1)%nat).
  { destruct (Z.eqb_spec (m_num m) 0) as [K | K].
    - destruct q as [| c q]; [apply decode_ok; assumption |]. exfalso. destruct H as (k & S & _ & _ & _ & En & _). cbn [length] in En. lia.
    - destruct q as [| c q]; [| exists m, rest, c, q; split; [reflexivity |]; split; [exact H | lia]]. exfalso. destruct H as (k & S & _ & _ & _ & En & _). cbn [length] in En. lia. }
  destruct P as (m1 & rest1 & c & q1 & E & H1 & L1). rewrite E. destruct H1 as (k & S & M & Ek & Hk & En & Hn & F & Er & Ch).
  inversion F as [| ? ? C F']; subst. cbn [chain] in Ch. destruct Ch as (k1 & S1 & Ms & Ch). cbn [pack length] in *. unfold small in C.
  exists c. eexists. exists rest1, q1, k1, S1. split; [| split; [exact Ms |]; split; [| exact L1]].
  - rewrite Er. f_equal. f_equal. change 127 with (Z.ones 7). rewrite Z.land_ones by lia. change (2 ^ 7) with 128. rewrite (Z.mul_comm 128), Z.mod_add by lia. apply Z.mod_small. lia.
  - exists k, S. split; [exact M |]. cbn [m_k m_num m_runs]. split; [exact Ek |]. split; [exact Hk |]. split; [lia |]. split; [lia |]. split; [exact F' |]. split; [| exact Ch].
    rewrite Z.shiftr_div_pow2 by lia. change (2 ^ 7) with 128. rewrite (Z.mul_comm 128), Z.div_add by lia. rewrite Z.div_small by lia. lia.
Qed.

(** ** Events *)

(** Events taken one by one. *)
Fixpoint mel_events (buf : list Z) (n : nat) (run : Z) (m : mel) : option (list bool) :=
  match n with
  | O => Some []
  | S n => match mel_event buf run m with Some (e, run, m) => match mel_events buf n run m with Some l => Some (e :: l) | None => None end | None => None end
  end.
(** A run code, and the zeros and the one it stands for. *)
Definition means (run : Z) (r : nat) (o : bool) : Prop :=
  if o then run = 2 * Z.of_nat r + 1 else (0 < r)%nat /\ run = 2 * (Z.of_nat r - 1).
Definition spec_at (run : Z) (k : nat) (S : list bool) (s : mel_state) : Prop :=
  exists r o, mel_refill s = Some (mkMS k r o S) /\ means run r o.

Lemma mstep_refill : forall k S c k1 S1, mstep k S c k1 S1 -> spec_at c k1 S1 (mkMS k 0 false S).
Proof.
  intros k S c k1 S1 M. unfold spec_at, mel_refill. cbn [ms_run ms_one ms_bits ms_k Nat.eqb negb andb]. fold (exp k). destruct S as [| [|] l]; cbn [mstep] in M; [contradiction | |].
  - destruct M as (-> & -> & ->). exists (2 ^ exp k)%nat, false. split; [reflexivity |]. cbn [means].
    assert (P : (2 ^ exp k <> 0)%nat) by (apply Nat.pow_nonzero; lia). split; [lia |]. rewrite Nat2Z.inj_pow. change (Z.of_nat 2) with 2. reflexivity.
  - destruct M as (r & E & -> & ->). rewrite E. exists r, true. split; reflexivity.
Qed.
Lemma events_ok : forall buf n run m rest k S q s, Forall byte buf -> queue buf m rest k S q -> (4 * n <= length rest)%nat -> spec_at run k S s ->
  exists l, mel_events buf n run m = Some l /\ mel_syms n s = Some l.
Proof.
  intros buf. induction n as [| n IH]; intros run m rest k S q s B H L (r & o & R & M); [exists []; split; reflexivity |].
  cbn [mel_events mel_syms]. unfold mel_event, mel_sym. rewrite R. cbn [ms_run ms_one ms_bits ms_k]. cbn zeta.
  assert (Next : forall e, exists l, match (match mel_get_run buf m with Some (r, m) => Some (e, r, m) | None => None end) with
      Some (e, run, m) => match mel_events buf n run m with Some l => Some (e :: l) | None => None end | None => None end = Some (e :: l) /\ mel_syms n (mkMS k 0 false S) = Some l).
  { intros e. destruct (get_run_ok buf m rest k S q B H ltac:(lia)) as (c & m' & rest' & q' & k1 & S1 & E & Ms & H' & L'). rewrite E.
    destruct (IH c m' rest' k1 S1 q' (mkMS k 0 false S) B H' ltac:(lia) (mstep_refill _ _ _ _ _ Ms)) as (l & E1 & E2). rewrite E1. exists l. split; [reflexivity | exact E2]. }
  destruct o; cbn [means] in M.
  - destruct r as [| r].
    + replace (run - 2) with (-1) by lia. cbn [Z.eqb Z.ltb Z.compare Pos.eqb]. destruct (Next true) as (l & E1 & E2). exists (true :: l). rewrite E2. split; [exact E1 | reflexivity].
    + destruct (Z.eqb_spec (run - 2) (-1)); [lia |]. destruct (Z.ltb_spec (run - 2) 0); [lia |].
      destruct (IH (run - 2) m rest k S q (mkMS k r true S) B H ltac:(lia)) as (l & E1 & E2).
      { exists r, true. unfold mel_refill. cbn [ms_run ms_one negb andb]. rewrite andb_false_r. split; [reflexivity |]. cbn [means]. lia. }
      rewrite E1, E2. exists (false :: l). split; reflexivity.
  - destruct M as (P & M). destruct r as [| r]; [lia |]. destruct (Z.eqb_spec (run - 2) (-1)); [lia |]. destruct r as [| r].
    + destruct (Z.ltb_spec (run - 2) 0); [| lia]. destruct (Next false) as (l & E1 & E2). exists (false :: l). rewrite E2. split; [exact E1 | reflexivity].
    + destruct (Z.ltb_spec (run - 2) 0); [lia |]. destruct (IH (run - 2) m rest k S q (mkMS k (Datatypes.S r) false S) B H ltac:(lia)) as (l & E1 & E2).
      { exists (Datatypes.S r), false. split; [reflexivity |]. cbn [means]. lia. }
      rewrite E1, E2. exists (false :: l). split; reflexivity.
Qed.

Lemma mholds_start : forall l, mholds 0 0 false l (mel_bits false l).
Proof.
  intros l. split; [lia |]. split; [lia |]. exists []. split; [reflexivity |]. split; [reflexivity |]. split; [intros; lia |]. split; [intros; apply Z.bits_0 | discriminate].
Qed.
Lemma mel_init_ok : forall base buf lcup scup N, Forall byte buf -> 2 <= scup <= lcup -> lcup <= Z.of_nat (length buf) -> (4 <= N)%nat ->
  let l := mseg buf (lcup - scup) (scup - 1) ++ repeat 255 N in
  match mel_init base buf lcup scup with
  | None => False
  | Some None => True
  | Some (Some m) => exists rest, queue buf m rest 0 (mel_bits false l) [] /\ (N <= 4 + length rest)%nat
  end.
Proof.
  intros base buf lcup scup N B Sc Lc HN l. unfold mel_init. cbn zeta. pose proof (Z.mod_pos_bound (base + (lcup - scup)) 4 ltac:(lia)) as A.
  set (n := Z.to_nat (4 - (base + (lcup - scup)) mod 4)). assert (Hn : (n <= 4)%nat) by (unfold n; lia). clearbody n. clear A.
  set (m0 := mkMel (lcup - scup) 0 0 (scup - 1) false 0 0 0).
  assert (H0 : lowst buf m0 l (mel_bits false l)).
  { split; [| exact (mholds_start l)]. cbn [m_data m_size m0]. unfold m0. cbn [m_data m_size]. split; [lia |]. split; [lia |]. exists N. reflexivity. }
  assert (Ll : (N <= length l)%nat) by (unfold l; rewrite app_length, repeat_length; lia).
  pose proof (mel_start_ok buf n m0 l _ B H0 ltac:(unfold m0; cbn [m_bits]; lia) ltac:(lia)) as P.
  destruct (mel_start buf n m0) as [[m |] |]; [| exact I | exact P]. destruct P as (rest & (Sr & H) & L & _ & Ek & En & Er).
  exists rest. split; [| lia]. exists 0%nat, (mel_bits false l). split. { split; [exact Sr | exact H]. }
  cbn [m_k m_num m_runs]. rewrite Ek, En, Er. split; [reflexivity |]. split; [lia |]. split; [reflexivity |]. split; [cbn; lia |]. split; [constructor |]. split; [reflexivity |]. split; reflexivity.
Qed.
