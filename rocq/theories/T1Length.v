(** A code-block of at most 4096 coefficients is coded in less than 2^25 bytes. *)

From Coq Require Import ZArith List Bool Arith Lia ZifyNat.
From Verif Require Import I32 MathModel ZBits Mem Ints MqModel MqProofs MqProps T1Model T1Spec T1Rel T1Enc T1Code T1Block T1Props.
Import ListNotations.
Local Open Scope Z_scope.

(** At least seven shifts lie between two bytes. *)
Lemma byteout_ct_range : forall start s, 7 <= ct (byteout start s) <= 8.
Proof.
  intros. unfold byteout. cbv zeta. destruct (cur _ =? 255); [cbn [emit7 ct]; lia |]. destruct (Z.land _ _ =? 0); [cbn [emit8 ct]; lia |].
  destruct (cur _ =? 255); cbn [emit7 emit8 ct]; lia.
Qed.

Lemma renorme_some : forall fuel start s, 1 <= ct s < 2 ^ 32 ->
  7 * (bp (renorme fuel start s) - bp s) <= Z.max 0 (Z.of_nat fuel - ct s + 7).
Proof.
  induction fuel as [| fuel IH]; intros start s Hc; cbn [renorme]; [cbn [check bp]; lia |]. cbv zeta.
  assert (E : ct s = 1 /\ bp (shift_enc start s) = bp s + 1 /\ 7 <= ct (shift_enc start s) <= 8 \/ 2 <= ct s /\ bp (shift_enc start s) = bp s /\ ct (shift_enc start s) = ct s - 1).
  { unfold shift_enc. cbv zeta. cbn [ct]. rewrite (u32_small (ct s - 1)) by lia. destruct (Z.eqb_spec (ct s - 1) 0).
    - left. split; [lia |]. split; [rewrite byteout_bp; reflexivity | apply byteout_ct_range].
    - right. cbn [bp ct]. lia. }
  specialize (IH start (shift_enc start s)). destruct E as [(E1 & E2 & E3) | (E1 & E2 & E3)]; specialize (IH ltac:(lia)); destruct (negb _); lia.
Qed.
Lemma renorme_few : forall fuel start s, 7 * (bp (renorme fuel start s) - bp s) <= Z.of_nat fuel + 6.
Proof.
  intros [| fuel] start s; cbn [renorme]; [cbn [check bp]; lia |]. cbv zeta.
  assert (E : bp (shift_enc start s) <= bp s + 1 /\ 7 <= ct (shift_enc start s) <= 8 \/ bp (shift_enc start s) = bp s /\ 1 <= ct (shift_enc start s) < 2 ^ 32).
  { unfold shift_enc. cbv zeta. cbn [ct]. destruct (Z.eqb_spec (u32 (ct s - 1)) 0) as [E | E].
    - left. split; [rewrite byteout_bp; cbn [bp]; lia | apply byteout_ct_range].
    - right. cbn [bp ct]. pose proof (Z.mod_pos_bound (ct s - 1) (2 ^ 32) ltac:(lia)). unfold u32 in *. lia. }
  pose proof (renorme_some fuel start (shift_enc start s)) as H. destruct E as [(E1 & E2) | (E1 & E2)]; specialize (H ltac:(lia)); destruct (negb _); lia.
Qed.

Lemma encode_few : forall start cx d s, bp (encode start cx d s) <= bp s + 5.
Proof.
  intros. unfold encode. destruct (_ =? d).
  - unfold codemps. cbv zeta. destruct (Z.land _ _ =? 0); [| cbn [set_c set_a bp]; lia].
    match goal with |- bp (renorme rounds start ?x) <= _ => pose proof (renorme_few rounds start x) as H; assert (E : bp x = bp s) end.
    { cbn [set_ctxs bp]. destruct (_ <? _); reflexivity. } rewrite E in H. change (Z.of_nat rounds) with 32 in H. lia.
  - unfold codelps. cbv zeta.
    match goal with |- bp (renorme rounds start ?x) <= _ => pose proof (renorme_few rounds start x) as H; assert (E : bp x = bp s) end.
    { cbn [set_ctxs bp]. destruct (_ <? _); reflexivity. } rewrite E in H. change (Z.of_nat rounds) with 32 in H. lia.
Qed.
Lemma code_mq_few : forall start o s, bp (code_mq start o s) <= bp s + 5 * Z.of_nat (length o).
Proof.
  intros start o. unfold code_mq. induction o as [| x o IH]; intros s; cbn [fold_left length]; [lia |].
  pose proof (encode_few start (fst x) (snd x) s). specialize (IH (encode start (fst x) (snd x) s)). lia.
Qed.

Fixpoint bytes_most (ps : list piece) : Z := match ps with [] => 0 | P :: ps => 5 * Z.of_nat (length (out_of P)) + 40 + bytes_most ps end.
Lemma turn_few : forall start pterm reset prev P s, bp (fst (turn start pterm reset prev P s)) <= bp s + 5 * Z.of_nat (length (out_of P)) + 40.
Proof.
  intros. unfold turn. cbv zeta. cbn [fst]. rewrite (proj1 (wipe_bp reset _)).
  set (s1 := if prev then _ else s). assert (E1 : bp s1 <= bp s).
  { unfold s1. destruct prev; [| lia]. destruct (raw_of P); [unfold bypass_init_enc; cbn [check set_ct set_c bp]; lia |]. pose proof (restart_same start s). lia. }
  set (s2 := if raw_of P then code_raw (out_of P) s1 else _). assert (E2 : bp s2 <= bp s1 + 5 * Z.of_nat (length (out_of P))).
  { unfold s2. destruct (raw_of P); [pose proof (code_raw_bp (out_of P) s1); lia | apply code_mq_few]. }
  destruct (ends_of P); [| lia]. destruct (raw_of P); [pose proof (bypass_flush_bp pterm s2); lia | pose proof (close_bp start pterm s2); lia].
Qed.
Lemma run_few : forall start pterm reset ps prev s, bp (snd (run start pterm reset prev ps s)) <= bp s + bytes_most ps.
Proof.
  intros start pterm reset. induction ps as [| P ps IH]; intros prev s; cbn [run bytes_most]; [cbn [snd]; lia |].
  pose proof (turn_few start pterm reset prev P s) as H. destruct (turn start pterm reset prev P s) as [s1 r]. cbn [fst] in H.
  specialize (IH (ends_of P) s1). destruct (run start pterm reset (ends_of P) ps s1) as [rs s2]. cbn [snd] in *. lia.
Qed.
Lemma pieces_few : forall B sty n k p t s, good B -> width B * height B <= 4096 -> bytes_most (pieces B sty n k p t s) <= Z.of_nat k * (5 * (12 * 4096 + 4) + 40).
Proof.
  intros B sty n k. induction k as [| k IH]; intros p t s G Hs; cbn [pieces]; [cbn [bytes_most]; lia |]. destruct (p <? 0); [cbn [bytes_most]; lia |].
  cbn [bytes_most out_of]. pose proof (out_small (is_raw sty n p t) B sty p t s G) as [_ H]. specialize (IH (fst (after_pass p t)) (snd (after_pass p t)) (fst (coding_pass (is_raw sty n p t) B p t s)) G Hs). lia.
Qed.

Theorem coded_short : forall start w h orient sty bits x m k, Fits w h orient start bits x m -> encoded start w h orient sty x m = Some k ->
  Z.of_nat (length (k_data k)) < 2 ^ 25.
Proof.
  intros start w h orient sty bits x m k F E. pose proof F as [Hw Hh Hs Ho Hb Hx Hm Hst].
  assert (Hi : forall a b, 0 <= a < w -> 0 <= b < h -> in_i32 (scaled x a b)) by (intros a b Ha Hb'; apply (scaled_facts _ _ _ _ _ _ _ F a b Ha Hb')).
  unfold encoded in E. destruct (planes_cases w h (scaled x) Hw Hh Hi) as [(P1 & _) | (P1 & _)].
  - destruct (encode_shape start w h orient sty (scaled x) m Hw Hh Hs Ho Hi Hm Hst P1) as (K & HK & E'). cbv zeta in E'. rewrite E in E'.
    destruct (T2PacketModel.trim_rates _ _); [| discriminate]. assert (EN : k_data k = bytes_at (buf (snd (played start w h orient sty (scaled x) m (S K)))) start (bp (snd (played start w h orient sty (scaled x) m (S K))) - start)) by (injection E'; intros ->; reflexivity).
    rewrite EN. unfold bytes_at. rewrite map_length, seq_length.
    assert (G : good (block_of w h orient sty (scaled x))) by (split; [exact Hw | split; [exact Hh | exact Ho]]).
    pose proof (run_few start (styled sty CBLKSTY_PTERM) (styled sty CBLKSTY_RESET) (plan w h orient sty (scaled x) (S K)) false (init_enc start m reset_ctxs)) as R.
    fold (played start w h orient sty (scaled x) m (S K)) in R. assert (E1 : bp (init_enc start m reset_ctxs) = start - 1) by reflexivity. rewrite E1 in R.
    pose proof (pieces_few (block_of w h orient sty (scaled x)) sty (planes w h (scaled x)) (S K) (planes w h (scaled x) - 1) 2 (initial (planes w h (scaled x))) G Hs) as Q.
    fold (plan w h orient sty (scaled x) (S K)) in Q. change (2 ^ 25) with 33554432. lia.
  - destruct (encode_nothing start w h orient sty (scaled x) m Hw Hh Hi Hst) as (N & E' & HN); [lia |]. rewrite E in E'.
    assert (EN : k_data k = []) by (injection E'; intros ->; reflexivity). rewrite EN. cbn [length]. lia.
Qed.
