(** C72: four bytes are only read at once from addresses that are multiples of
    four ([read_le_uint32] dereferences a pointer to a 32-bit word). *)

From Coq Require Import ZArith List Bool Lia.
From Verif Require Import Ints HtModel.
Import ListNotations.
Local Open Scope Z_scope.

Lemma some_inj : forall (A : Type) (a b : A), Some a = Some b -> b = a.
Proof. intros A a b E. injection E as ->. reflexivity. Qed.

(** ** MagSgn and SPP *)

(** States of the reader from the time its single bytes are in. *)
Inductive frwd_reach (base : Z) (buf : list Z) (data size X : Z) : frwd -> Prop :=
| fr_start : forall f, frwd_start buf (Z.to_nat (4 - (base + data) mod 4)) (mkFrwd data 0 0 false size X) = Some f -> frwd_reach base buf data size X f
| fr_read : forall f g, frwd_reach base buf data size X f -> frwd_read buf f = Some g -> frwd_reach base buf data size X g
| fr_advance : forall f g n, frwd_reach base buf data size X f -> frwd_advance f n = Some g -> frwd_reach base buf data size X g.

Lemma frwd_start_moves : forall buf n f g, frwd_start buf n f = Some g -> f_size g = f_size f - Z.of_nat n /\ (0 <= f_size g -> f_data g = f_data f + Z.of_nat n).
Proof.
  intros buf. induction n as [| n IH]; intros f g E; cbn [frwd_start] in E; [injection E as <-; lia |].
  destruct (Z.ltb_spec 0 (f_size f)) as [K | K].
  - destruct (byte_at buf (f_data f)) as [d |]; [| discriminate]. apply IH in E. cbn [f_size f_data] in E. lia.
  - apply IH in E. cbn [f_size f_data] in E. lia.
Qed.
Theorem c72_forward : forall base buf data size X f, frwd_reach base buf data size X f -> 3 < f_size f -> (base + f_data f) mod 4 = 0.
Proof.
  intros base buf data size X f H. induction H as [f E | f g H IH E | f g n H IH E]; intros S.
  - apply frwd_start_moves in E. cbn [f_size f_data] in E. destruct E as (_ & E). rewrite E by lia.
    pose proof (Z.mod_pos_bound (base + data) 4 ltac:(lia)). rewrite Z2Nat.id by lia. pose proof (Z.div_mod (base + data) 4 ltac:(lia)) as Q.
    replace (base + (data + (4 - (base + data) mod 4))) with (((base + data) / 4 + 1) * 4) by lia. apply Z.mod_mul. lia.
  - unfold frwd_read in E. destruct (32 <? f_bits f); [discriminate |]. unfold frwd_val in E. destruct (Z.ltb_spec 3 (f_size f)) as [K | K].
    + destruct (read_le_uint32 buf (f_data f)) as [v |]; [| discriminate]. apply some_inj in E. subst g. cbn [f_size f_data] in *. specialize (IH K).
      replace (base + (f_data f + 4)) with (base + f_data f + 1 * 4) by lia. rewrite Z.mod_add by lia. exact IH.
    + destruct (0 <? f_size f); [destruct (put_up _ _ _ _ _); [| discriminate] |]; apply some_inj in E; subst g; cbn [f_size] in S; lia.
  - unfold frwd_advance in E. destruct (f_bits f <? n); [discriminate |]. injection E as <-. exact (IH S).
Qed.

(** ** VLC and MRP *)

Inductive rev_reach (base : Z) (buf : list Z) : rev_st -> Prop :=
| rr_vlc : forall v w d size, let num := 1 + (base + v_data v) mod 4 in let tnum := if num <? size then num else size in
    v = mkRev (v_data v) (Z.shiftr d 4) (4 - one (Z.land (Z.shiftr d 4) 7 =? 7)) size (143 <? Z.lor d 15) ->
    rev_start buf (Z.to_nat tnum) v = Some w -> rev_reach base buf (mkRev (v_data w) (v_tmp w) (v_bits w) (v_size w - tnum) (v_unstuff w))
| rr_mrp : forall v w, mrp_start buf (Z.to_nat (1 + (base + v_data v) mod 4)) v = Some w -> rev_reach base buf w
| rr_read : forall v w, rev_reach base buf v -> rev_read buf v = Some w -> rev_reach base buf w
| rr_advance : forall v w x n, rev_reach base buf v -> rev_advance v n = Some (x, w) -> rev_reach base buf w.

Lemma rev_start_moves : forall buf n v w, rev_start buf n v = Some w -> v_size w = v_size v /\ v_data w = v_data v - Z.of_nat n.
Proof.
  intros buf. induction n as [| n IH]; intros v w E; cbn [rev_start] in E; [injection E as <-; lia |].
  destruct (byte_at buf (v_data v)) as [d |]; [| discriminate]. apply IH in E. cbn [v_size v_data] in E. lia.
Qed.
Lemma mrp_start_moves : forall buf n v w, mrp_start buf n v = Some w -> v_size w = v_size v - Z.of_nat n /\ (0 <= v_size w -> v_data w = v_data v - Z.of_nat n).
Proof.
  intros buf. induction n as [| n IH]; intros v w E; cbn [mrp_start] in E; [injection E as <-; lia |].
  destruct (Z.ltb_spec 0 (v_size v)) as [K | K].
  - destruct (byte_at buf (v_data v)) as [d |]; [| discriminate]. apply IH in E. cbn [v_size v_data] in E. lia.
  - apply IH in E. cbn [v_size v_data] in E. lia.
Qed.
Lemma back_aligned : forall a d, (a + (d - (1 + (a + d) mod 4) - 3)) mod 4 = 0.
Proof.
  intros a d. pose proof (Z.div_mod (a + d) 4 ltac:(lia)) as Q. replace (a + (d - (1 + (a + d) mod 4) - 3)) with (((a + d) / 4 - 1) * 4) by lia. apply Z.mod_mul. lia.
Qed.
Theorem c72_backward : forall base buf v, rev_reach base buf v -> 3 < v_size v -> (base + (v_data v - 3)) mod 4 = 0.
Proof.
  intros base buf v H. induction H as [v w d size num tnum Ev E | v w E | v w H IH E | v w x n H IH E]; intros S.
  - cbn [v_size v_data] in *. apply rev_start_moves in E. destruct E as (Es & Ed). rewrite Ed. rewrite Ev in Es. cbn [v_size] in Es.
    pose proof (Z.mod_pos_bound (base + v_data v) 4 ltac:(lia)) as M. unfold tnum in *. destruct (Z.ltb_spec num size) as [K | K]; [| lia].
    rewrite Z2Nat.id by lia. apply back_aligned.
  - apply mrp_start_moves in E. pose proof (Z.mod_pos_bound (base + v_data v) 4 ltac:(lia)) as M. destruct E as (_ & E). rewrite E by lia. rewrite Z2Nat.id by lia. apply back_aligned.
  - unfold rev_read in E. destruct (32 <? v_bits v); [injection E as <-; exact (IH S) |]. unfold rev_val in E. destruct (Z.ltb_spec 3 (v_size v)) as [K | K].
    + destruct (read_le_uint32 buf (v_data v - 3)) as [y |]; [| discriminate]. apply some_inj in E. subst w. cbn [v_size v_data] in *. specialize (IH K).
      replace (base + (v_data v - 4 - 3)) with (base + (v_data v - 3) + (-1) * 4) by lia. rewrite Z.mod_add by lia. exact IH.
    + destruct (0 <? v_size v); [destruct (put_down _ _ _ _ _); [| discriminate] |]; apply some_inj in E; subst w; cbn [v_size] in S; lia.
  - unfold rev_advance in E. destruct (v_bits v <? n); [discriminate |]. injection E as <- <-. exact (IH S).
Qed.

(** ** MEL *)

Inductive mel_reach (base : Z) (buf : list Z) (lcup scup : Z) : mel -> Prop :=
| mr_init : forall m, mel_init base buf lcup scup = Some (Some m) -> mel_reach base buf lcup scup m
| mr_read : forall m w, mel_reach base buf lcup scup m -> mel_read buf m = Some w -> mel_reach base buf lcup scup w
| mr_loop : forall m w n, mel_reach base buf lcup scup m -> mel_loop n m = Some w -> mel_reach base buf lcup scup w
| mr_run : forall m w r, mel_reach base buf lcup scup m -> mel_get_run buf m = Some (r, w) -> mel_reach base buf lcup scup w.

Lemma mel_start_moves : forall buf n m w, mel_start buf n m = Some (Some w) -> m_size w = m_size m - Z.of_nat n /\ (0 <= m_size w -> m_data w = m_data m + Z.of_nat n).
Proof.
  intros buf. induction n as [| n IH]; intros m w E; cbn [mel_start] in E; [injection E as <-; lia |].
  destruct (if m_unstuff m then byte_at buf (m_data m) else Some 0) as [x |]; [| discriminate]. destruct (143 <? x); [discriminate |].
  destruct (Z.ltb_spec 0 (m_size m)) as [K | K].
  - destruct (byte_at buf (m_data m)) as [d |]; [| discriminate]. apply IH in E. cbn [m_size m_data] in E. lia.
  - apply IH in E. cbn [m_size m_data] in E. lia.
Qed.
Lemma mel_loop_moves : forall n m w, mel_loop n m = Some w -> m_size w = m_size m /\ m_data w = m_data m.
Proof.
  induction n as [| n IH]; intros m w E; cbn [mel_loop] in E; [injection E as <-; split; reflexivity |].
  destruct ((6 <=? m_bits m) && (m_num m <? 8)); [| injection E as <-; split; reflexivity]. destruct (nth_error mel_exp (Z.to_nat (m_k m))) as [e |]; [| discriminate].
  destruct (negb (Z.land (m_tmp m) (shl64 1 63) =? 0)); apply IH in E; exact E.
Qed.
Lemma mel_read_keeps : forall base buf m w, (4 < m_size m -> (base + m_data m) mod 4 = 0) -> mel_read buf m = Some w -> 4 < m_size w -> (base + m_data w) mod 4 = 0.
Proof.
  intros base buf m w IH E S. unfold mel_read in E. destruct (32 <? m_bits m); [injection E as <-; exact (IH S) |]. unfold mel_val in E. destruct (Z.ltb_spec 4 (m_size m)) as [K | K].
  - destruct (read_le_uint32 buf (m_data m)) as [y |]; [| discriminate]. apply some_inj in E. subst w. cbn [m_size m_data] in *. specialize (IH K).
    replace (base + (m_data m + 4)) with (base + m_data m + 1 * 4) by lia. rewrite Z.mod_add by lia. exact IH.
  - destruct (0 <? m_size m); [destruct (put_up _ _ _ _ _); [destruct (byte_at _ _) |]; try discriminate |]; apply some_inj in E; subst w; cbn [m_size] in S; lia.
Qed.
Theorem c72_mel : forall base buf lcup scup m, mel_reach base buf lcup scup m -> 4 < m_size m -> (base + m_data m) mod 4 = 0.
Proof.
  intros base buf lcup scup m H. induction H as [m E | m w H IH E | m w n H IH E | m w r H IH E].
  - intros S. unfold mel_init in E. cbn zeta in E. destruct (mel_start _ _ _) as [[w |] |] eqn:Es; try discriminate. injection E as <-. cbn [m_size m_data] in *.
    apply mel_start_moves in Es. cbn [m_size m_data] in Es. destruct Es as (_ & Es). rewrite Es by lia. set (a := base + (lcup - scup)).
    pose proof (Z.mod_pos_bound a 4 ltac:(lia)). rewrite Z2Nat.id by lia. pose proof (Z.div_mod a 4 ltac:(lia)) as Q.
    replace (base + (lcup - scup + (4 - a mod 4))) with ((a / 4 + 1) * 4) by lia. apply Z.mod_mul. lia.
  - eapply mel_read_keeps; eassumption.
  - apply mel_loop_moves in E. destruct E as (-> & ->). exact IH.
  - unfold mel_get_run in E. destruct (m_num m =? 0); [| injection E as _ <-; exact IH].
    destruct (mel_decode buf m) as [m1 |] eqn:Ed; [| discriminate]. injection E as _ <-. cbn [m_size m_data]. unfold mel_decode in Ed.
    destruct (m_bits m <? 6); [destruct (mel_read buf m) as [m2 |] eqn:Er; [| discriminate]; apply mel_loop_moves in Ed; destruct Ed as (-> & ->); eapply mel_read_keeps; eassumption |].
    apply mel_loop_moves in Ed. destruct Ed as (-> & ->). exact IH.
Qed.

(** A block at an address that is not a multiple of four: one byte first. *)
Example c72_at : exists f, frwd_reach 3 [1; 2; 3; 4; 5; 6] 0 6 255 f /\ f_data f = 1 /\ f_size f = 5.
Proof. eexists. split; [apply fr_start; reflexivity | split; reflexivity]. Qed.
(** Two bytes of the VLC segment first, then four at 5 - 3 = 2. *)
Example c72_back : (1 + (2 + 7) mod 4 = 2) /\ exists w, mrp_start [1; 2; 3; 4; 5; 6; 7; 8] 2 (mkRev 7 0 0 8 true) = Some w /\ v_data w = 5 /\ v_size w = 6 /\ (2 + (v_data w - 3)) mod 4 = 0.
Proof. split; [reflexivity |]. eexists. split; [reflexivity |]. repeat split. Qed.

Print Assumptions c72_forward.
Print Assumptions c72_backward.
Print Assumptions c72_mel.
