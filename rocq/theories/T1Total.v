(** The encoder of a code-block never fails its assertions: every pass it
    reports has at least one byte. *)

From Coq Require Import ZArith List Lia Bool.
From Verif Require Import BioProofs Ints I32 Mem MqModel MqProofs MqSync MqEnd MqProps T2CodesModel T2PacketModel T1Luts T1Model T1Spec T1Bits T1Rel T1Enc T1Stage T1Dec T1Code T1Block T1Trip.
From Verif Require Import Ints.
Import ListNotations.
Local Open Scope Z_scope.

(** ** The top of the interval before the first byte *)

Definition Lim (start K : Z) (s : mqc) : Prop := start <= bp s \/ bp s = start - 1 /\ (c s + a s) * 2 ^ ct s <= K.
Definition Late (start : Z) (s : mqc) : Prop := Lim start (2 ^ 27 - 1) s /\ ct s <= 11.

Lemma shift_lim : forall start K s, Inv start 1 (2 ^ 15) s -> Lim start K s -> Lim start K (shift_enc start s) /\ ct (shift_enc start s) <= 11.
Proof.
  intros start K s I L. pose proof (inv_c start 1 _ s ltac:(lia) I) as Ic. destruct I as [Hb Ha Hc Hct Hr Hbp Hx Hcl Haf Hok].
  unfold shift_enc. cbn [ct]. rewrite !shl_id by (change (2 ^ 1) with 2; lia). rewrite (u32_id (ct s - 1)) by lia. change (2 ^ 1) with 2.
  destruct (Z.eqb_spec (ct s - 1) 0) as [E | E].
  - pose proof (byteout_frame start (mkMqc (c s * 2) (a s * 2) (ct s - 1) (bp s) (buf s) (ctxs s) (ok s))) as F. cbv zeta in F. destruct F as (F1 & _).
    split; [left; rewrite F1; cbn [bp]; lia |].
    destruct (byteout_cases start (mkMqc (c s * 2) (a s * 2) (ct s - 1) (bp s) (buf s) (ctxs s) (ok s))) as (s0 & Eq & _). rewrite Eq.
    match goal with |- context [if ?b then _ else _] => destruct b end; cbn [emit7 emit8 ct]; lia.
  - split; [| cbn [ct]; lia]. destruct L as [L | [L1 L2]]; [left; exact L | right]. cbn [bp c a ct]. split; [exact L1 |].
    assert (Ep : 2 ^ ct s = 2 * 2 ^ (ct s - 1)) by (rewrite <- Z.pow_succ_r by lia; f_equal; lia). rewrite Ep in L2. clear - L2. nia.
Qed.

Lemma renorme_lim : forall fuel start K s, Inv start 1 (2 ^ 15) s -> 2 ^ 15 <= a s * 2 ^ Z.of_nat fuel -> Lim start K s ->
  Lim start K (renorme fuel start s) /\ ct (renorme fuel start s) <= 11.
Proof.
  induction fuel as [| fuel IH]; intros start K s I Hf L.
  - destruct I. cbn in Hf. lia.
  - cbn [renorme]. destruct (shift_inv start s I) as (I1 & E1 & X1). destruct (shift_lim start K s I L) as [L1 T1]. set (s1 := shift_enc start s) in *.
    rewrite bit15 by (destruct I1; lia). destruct (Z.ltb_spec (a s1) (2 ^ 15)) as [C | C]; cbn [negb]; [| split; assumption].
    assert (I2 : Inv start 1 (2 ^ 15) s1) by (destruct I1; constructor; try assumption; lia).
    apply IH; [exact I2 | | exact L1]. rewrite E1. rewrite Nat2Z.inj_succ, Z.pow_succ_r in Hf by lia. lia.
Qed.

Lemma narrow_lim : forall start K s s', Lim start K s -> 0 <= ct s -> bp s' = bp s -> ct s' = ct s -> c s' + a s' <= c s + a s -> Lim start K s'.
Proof.
  intros start K s s' L Hc E1 E2 H. unfold Lim. rewrite E1, E2. destruct L as [L | [L1 L2]]; [left; exact L | right]. split; [exact L1 |].
  assert ((c s' + a s') * 2 ^ ct s <= (c s + a s) * 2 ^ ct s) by (apply Z.mul_le_mono_nonneg_r; [apply Z.lt_le_incl, p2; exact Hc | exact H]). lia.
Qed.

(** Coding a decision does not raise the top. *)
Lemma encode_lim : forall start K ctx d s, Inv start (2 ^ 15) (2 ^ 16) s -> Lim start K s ->
  Lim start K (encode start ctx d s) /\ (ct s <= 11 -> ct (encode start ctx d s) <= 11).
Proof.
  intros start K ctx d s I L. rewrite (encode_eq start ctx d s I).
  destruct (pick_facts start ctx d s I) as (N1 & N2 & N3 & N4 & N5 & N6). assert (Hct : 1 <= ct s <= 12) by (destruct I; assumption).
  assert (L1 : Lim start K (pick s ctx d)) by (apply (narrow_lim start K s); [exact L | lia | reflexivity | reflexivity | exact N2]).
  destruct (quick s ctx d) eqn:Q.
  - split; [exact L1 | intros T; exact T].
  - assert (I1 : Inv start 1 (2 ^ 15) (pick s ctx d)).
    { pose proof I as [_ _ _ _ _ _ Hx _ _ _]. apply (inv_narrow start (2 ^ 15) (2 ^ 16) _ _ s); try reflexivity; try assumption. specialize (N5 eq_refl). lia. }
    destruct (renorme_lim rounds start K _ I1) as [R1 R2]; [change (Z.of_nat rounds) with 32; lia | exact L1 |]. split; [exact R1 | intros _; exact R2].
Qed.

(** The less probable decision takes the lower part, if it is less than a quarter of 2^16. *)
Lemma encode_drop : forall start ctx d s, Inv start (2 ^ 15) (2 ^ 16) s -> Lim start (2 ^ 27) s -> d <> mps_of (ctxs s ctx) -> qe_of (ctxs s ctx) < 2 ^ 14 ->
  Late start (encode start ctx d s).
Proof.
  intros start ctx d s I L Hd Hq. rewrite (encode_eq start ctx d s I).
  destruct (pick_facts start ctx d s I) as (N1 & N2 & N3 & N4 & N5 & N6). assert (Hct : 1 <= ct s <= 12) by (destruct I; assumption). assert (Ha : 2 ^ 15 <= a s) by (destruct I; lia).
  assert (Q : quick s ctx d = false) by (unfold quick; rewrite (proj2 (Z.eqb_neq d _) Hd), andb_false_r; reflexivity). rewrite Q.
  assert (I1 : Inv start 1 (2 ^ 15) (pick s ctx d)).
  { pose proof I as [_ _ _ _ _ _ Hx _ _ _]. apply (inv_narrow start (2 ^ 15) (2 ^ 16) _ _ s); try reflexivity; try assumption. specialize (N5 Q). lia. }
  apply renorme_lim; [exact I1 | change (Z.of_nat rounds) with 32; lia |].
  assert (El : lower s ctx d = true) by (unfold lower; rewrite (proj2 (Z.eqb_neq d _) Hd); destruct (Z.ltb_spec (a s - qe_of (ctxs s ctx)) (qe_of (ctxs s ctx))); [lia | reflexivity]).
  unfold Lim, pick. cbn [bp c a ct]. rewrite El. destruct L as [L | [L1 L2]]; [left; exact L | right]. split; [exact L1 |].
  assert ((c s + qe_of (ctxs s ctx)) * 2 ^ ct s < (c s + a s) * 2 ^ ct s) by (apply Z.mul_lt_mono_pos_r; [apply p2; lia | lia]). lia.
Qed.

(** ** Contexts 0 and 17 before anything is significant *)

Definition quiet (i : Z) : bool := existsb (Z.eqb i) [6; 8; 10; 76; 78; 80; 82; 84; 86; 88; 90].
Lemma quiet_facts : forall i, quiet i = true -> mps_of i = 0 /\ qe_of i < 2 ^ 14 /\ quiet (nmps_of i) = true.
Proof.
  intros i H. unfold quiet in H. apply existsb_exists in H. destruct H as (k & Hk & E). apply Z.eqb_eq in E. subst k.
  cbn [In] in Hk. repeat (destruct Hk as [<- | Hk]; [split; [reflexivity | split; reflexivity] |]). contradiction.
Qed.
Definition blank (p : sym) : Prop := (fst p = 0 \/ fst p = 17) /\ snd p = 0.
Definition hushed (s : mqc) : Prop := quiet (ctxs s 0) = true /\ quiet (ctxs s 17) = true.

Lemma encode_hushed : forall start cx s, Inv start (2 ^ 15) (2 ^ 16) s -> hushed s -> cx = 0 \/ cx = 17 -> hushed (encode start cx 0 s).
Proof.
  intros start cx s I H Hcx. rewrite (encode_eq start cx 0 s I). assert (Q : quiet (ctxs s cx) = true) by (destruct H, Hcx; subst; assumption).
  destruct (quiet_facts _ Q) as (M & _ & Qn).
  destruct (quick s cx 0) eqn:Qk; [exact H |].
  destruct (pick_facts start cx 0 s I) as (N1 & N2 & N3 & N4 & N5 & N6).
  assert (I1 : Inv start 1 (2 ^ 15) (pick s cx 0)).
  { pose proof I as [_ _ _ _ _ _ Hx _ _ _]. apply (inv_narrow start (2 ^ 15) (2 ^ 16) _ _ s); try reflexivity; try assumption. specialize (N5 Qk). lia. }
  destruct (renorme_inv rounds start _ I1) as (_ & X & _); [change (Z.of_nat rounds) with 32; lia |].
  unfold hushed. rewrite X. unfold pick. cbn [ctxs]. rewrite M. cbn [Z.eqb]. unfold upd. destruct H as [H1 H2].
  split; [destruct (0 =? cx) | destruct (17 =? cx)]; assumption.
Qed.

Lemma blanks_lim : forall start pre s, Inv start (2 ^ 15) (2 ^ 16) s -> Lim start (2 ^ 27) s -> hushed s -> Forall blank pre ->
  Inv start (2 ^ 15) (2 ^ 16) (code_mq start pre s) /\ Lim start (2 ^ 27) (code_mq start pre s) /\ hushed (code_mq start pre s).
Proof.
  intros start pre. unfold code_mq. induction pre as [| [cx d] pre IH]; intros s I L H F; [exact (conj I (conj L H)) |].
  inversion F as [| p l [F1 F2] F3]. subst p l. cbn [fst snd] in F1, F2. subst d. cbn [fold_left fst snd].
  apply IH; [apply (encode_inv start cx 0 s I) | apply (encode_lim start _ cx 0 s I L) | apply encode_hushed; assumption | exact F3].
Qed.
Lemma code_late : forall start o s, Inv start (2 ^ 15) (2 ^ 16) s -> Late start s -> Inv start (2 ^ 15) (2 ^ 16) (code_mq start o s) /\ Late start (code_mq start o s).
Proof.
  intros start o. unfold code_mq. induction o as [| x o IH]; intros s I L; [exact (conj I L) |]. cbn [fold_left].
  apply IH; [apply (encode_inv start _ _ s I) |]. destruct L as [L1 L2]. destruct (encode_lim start _ (fst x) (snd x) s I L1) as [E1 E2]. split; [exact E1 | apply E2, L2].
Qed.

Definition breaks (o : list sym) : Prop := exists pre cx rest, o = pre ++ (cx, 1) :: rest /\ Forall blank pre /\ (cx = 0 \/ cx = 17).

Lemma breaks_late : forall start o s, Inv start (2 ^ 15) (2 ^ 16) s -> Lim start (2 ^ 27) s -> hushed s -> breaks o ->
  Inv start (2 ^ 15) (2 ^ 16) (code_mq start o s) /\ Late start (code_mq start o s).
Proof.
  intros start o s I L H (pre & cx & rest & -> & F & Hcx). destruct (blanks_lim start pre s I L H F) as (I1 & L1 & H1).
  unfold code_mq at 1 2. rewrite fold_left_app. change (fold_left (fun s p => encode start (fst p) (snd p) s) pre s) with (code_mq start pre s).
  cbn [fold_left fst snd]. change (fold_left (fun s p => encode start (fst p) (snd p) s) rest) with (code_mq start rest).
  apply code_late; [apply (encode_inv start cx 1 _ I1) |].
  assert (Q : quiet (ctxs (code_mq start pre s) cx) = true) by (destruct H1, Hcx; subst; assumption).
  destruct (quiet_facts _ Q) as (M & Hq & _). apply encode_drop; try assumption. rewrite M. discriminate.
Qed.

(** ** Closing the first segment writes a byte *)

Lemma erterm_loop_bp : forall fuel start k s, bp s <= bp (erterm_loop fuel start k s).
Proof.
  induction fuel as [| fuel IH]; intros start k s; cbn [erterm_loop]; destruct (0 <? k); try (cbn [check bp]; lia). cbv zeta.
  match goal with |- context [erterm_loop fuel start ?k' ?x] => specialize (IH start k' x); assert (E : bp x = bp s + 1) end.
  { rewrite byteout_bp. reflexivity. } lia.
Qed.

Lemma close_late : forall start pterm s, Inv start (2 ^ 15) (2 ^ 16) s -> Late start s -> start + 1 <= bp (close_mq start pterm s).
Proof.
  intros start pterm s I [L T]. unfold close_mq. destruct pterm.
  2:{ destruct (flush_end start s I) as (_ & H & _). lia. }
  assert (Hct : 1 <= ct s <= 12) by (destruct I; assumption). assert (Ha : 2 ^ 15 <= a s) by (destruct I; lia). assert (Hc : 0 <= c s) by (destruct I; lia).
  assert (I1 : Inv1 start s).
  { unfold Inv1. apply (inv_narrow start (2 ^ 15) (2 ^ 16) _ _ s); try exact I; try reflexivity; cbn [set_a c a ctxs]; try lia. destruct I; assumption. }
  unfold erterm_enc, rounds. rewrite erterm_unfold. destruct (Z.ltb_spec 0 (11 - ct s + 1)) as [_ | C]; [| lia].
  destruct (push_inv start s I1) as (I2 & C2 & K2 & B2 & X2 & _ & L2). set (s2 := push start s) in *.
  destruct L as [L | [L1 L3]].
  { pose proof (erterm_loop_bp 31 start (11 - ct s + 1 - ct s2) s2) as B3. set (s3 := erterm_loop 31 start (11 - ct s + 1 - ct s2) s2) in *.
    destruct (negb _); [rewrite byteout_bp |]; lia. }
  rewrite erterm_unfold. destruct (Z.ltb_spec 0 (11 - ct s + 1 - ct s2)) as [C | C].
  { assert (E3 : bp (push start s2) = bp s2 + 1) by (unfold push; rewrite byteout_bp; reflexivity). set (s3 := push start s2) in *.
    pose proof (erterm_loop_bp 30 start (11 - ct s + 1 - ct s2 - ct s3) s3) as B3. set (s4 := erterm_loop 30 start (11 - ct s + 1 - ct s2 - ct s3) s3) in *.
    destruct (negb _); [rewrite byteout_bp |]; lia. }
  assert (Hk : 4 <= ct s) by lia. assert (P4 : 2 ^ 4 <= 2 ^ ct s) by (apply Z.pow_le_mono_r; lia).
  assert (Hcc : 0 <= c s * 2 ^ ct s < 255 * 2 ^ 19) by (clear - L3 Ha Hc P4; nia).
  assert (E : cur s2 <> 255).
  { unfold s2, push. rewrite shl_id by lia. destruct (byteout_cases start (set_c s (c s * 2 ^ ct s))) as (s0 & Eq & Ea & Eb & Ec & _ & N & M). rewrite Eq.
    cbn [set_c c] in *. rewrite bit27 in * by lia. destruct (Z.ltb_spec (c s * 2 ^ ct s) (2 ^ 27)); [| lia]. cbn [negb andb orb] in *. rewrite ?orb_false_r, ?andb_false_r in *.
    destruct (N ltac:(apply orb_true_r)) as [N1 N2].
    assert (B0 : Z.shiftr (c s0) 19 mod 256 <> 255).
    { rewrite N2, Z.shiftr_div_pow2 by lia. assert (0 <= c s * 2 ^ ct s / 2 ^ 19 < 255) by (split; [apply Z.div_pos; lia | apply Z.div_lt_upper_bound; lia]). rewrite Z.mod_small; lia. }
    assert (B1 : Z.shiftr (c s0) 20 mod 256 <> 255).
    { rewrite N2, Z.shiftr_div_pow2 by lia. assert (0 <= c s * 2 ^ ct s / 2 ^ 20 < 255) by (split; [apply Z.div_pos; lia | apply Z.div_lt_upper_bound; lia]). rewrite Z.mod_small; lia. }
    destruct (cur _ =? 255); unfold cur, emit7, emit8; cbn [bp buf]; rewrite upd_same; assumption. }
  rewrite (proj2 (Z.eqb_neq _ _) E). cbn [negb]. rewrite byteout_bp. lia.
Qed.

(** ** The first clean-up pass has a decision 1 in one of these contexts *)

Definition calm (s : state) : Prop := forall x y, significant s x y = false.
Definition drops (f : step) : Prop := forall s, calm s -> breaks (snd (f s)) \/ Forall blank (snd (f s)) /\ calm (fst (f s)).

Lemma breaks_after : forall pre o, Forall blank pre -> breaks o -> breaks (pre ++ o).
Proof.
  intros pre o F (pre' & cx & rest & -> & F' & H). exists (pre ++ pre'), cx, rest. split; [apply app_assoc |]. split; [apply Forall_app; split; assumption | exact H].
Qed.
Lemma breaks_before : forall o rest, breaks o -> breaks (o ++ rest).
Proof. intros o rest (pre & cx & r & -> & F & H). exists pre, cx, (r ++ rest). split; [rewrite <- app_assoc; reflexivity | split; assumption]. Qed.

Lemma drops_steps : forall l, Forall drops l -> drops (steps l).
Proof.
  induction l as [| f l IH]; intros F s C; cbn [steps]; [right; split; [constructor | exact C] |].
  inversion F as [| f' l' F1 F2]. subst f' l'. specialize (F1 s C). destruct (f s) as [s1 o1]. cbn [fst snd] in F1. specialize (IH F2 s1).
  destruct (steps l s1) as [s2 o2]. cbn [fst snd] in *. destruct F1 as [B1 | [B1 C1]]; [left; apply breaks_before, B1 |].
  destruct (IH C1) as [B2 | [B2 C2]]; [left; apply breaks_after; assumption | right; split; [apply Forall_app; split; assumption | exact C2]].
Qed.

Lemma calm_seen : forall B s x y dx dy, calm s -> seen B s x y dx dy = false.
Proof. intros B s x y dx dy C. unfold seen. rewrite C, andb_false_r. reflexivity. Qed.
Lemma calm_context : forall B s x y, calm s -> context_of B s x y = 0.
Proof.
  intros B s x y C. unfold context_of, horizontal, vertical, diagonal. rewrite !calm_seen by exact C. cbn [count fold_right].
  unfold zero_context. destruct (_ =? 1); [reflexivity |]. destruct (_ =? 3); reflexivity.
Qed.

Lemma cleanup_step_drops : forall B p x y, drops (cleanup_step B p x y).
Proof.
  intros B p x y s C. unfold cleanup_step. destruct (_ && _); [| right; split; [constructor | exact C]].
  unfold code_zero. rewrite calm_context by exact C. unfold bit_at. destruct (Z.testbit _ p); cbn [Z.eqb Pos.eqb].
  - destruct (code_sign false B x y s) as [s1 o1]. cbn [snd]. left. exists [], 0, o1. split; [reflexivity | split; [constructor | left; reflexivity]].
  - cbn [fst snd]. right. split; [constructor; [split; [left; reflexivity | reflexivity] | constructor] | exact C].
Qed.

Lemma calm_fold_level : forall p x l s, calm s -> calm (fold_left (fun s y => set_level p s x y) l s).
Proof. intros p x l. induction l as [| y l IH]; intros s C; cbn [fold_left]; [exact C | apply IH; exact C]. Qed.
Lemma calm_fold_visited : forall x l s, calm s -> calm (fold_left (fun s y => set_visited false s x y) l s).
Proof. intros x l. induction l as [| y l IH]; intros s C; cbn [fold_left]; [exact C | apply IH; exact C]. Qed.

Lemma cleanup_column_drops : forall B p x ys, drops (cleanup_column B p x ys).
Proof.
  intros B p x ys s C. unfold cleanup_column. destruct (_ && _).
  - set (k := leading_zeros B p x ys). pose proof (calm_fold_level p x (firstn k ys) s C) as C1. set (s1 := fold_left _ (firstn k ys) s) in *. destruct (skipn k ys) as [| y l].
    + cbn [fst snd]. right. split; [constructor; [split; [right; reflexivity | reflexivity] | constructor] | apply calm_fold_visited, C1].
    + destruct (code_sign false B x y s1) as [s2 o2]. destruct (steps _ _) as [s3 o3]. cbn [snd]. left.
      exists [], 17, ([(18, Z.of_nat k / 2); (18, Z.of_nat k mod 2)] ++ o2 ++ o3). split; [reflexivity | split; [constructor | right; reflexivity]].
  - pose proof (drops_steps (map (cleanup_step B p x) ys)) as D. specialize (D ltac:(apply Forall_forall; intros f Hf; apply in_map_iff in Hf; destruct Hf as (y & <- & _); apply cleanup_step_drops) s C).
    destruct (steps _ s) as [s1 o1]. cbn [fst snd] in *. destruct D as [D | [D1 D2]]; [left; exact D | right; split; [exact D1 | apply calm_fold_visited, D2]].
Qed.

Lemma first_breaks : forall B p, good B -> 0 <= p -> (forall x y, inside B x y = true -> 0 <= magnitude B x y < 2 ^ (p + 1)) ->
  (exists x y, inside B x y = true /\ 2 ^ p <= magnitude B x y) -> breaks (snd (cleanup_pass B p (initial (p + 1)))).
Proof.
  intros B p G Hp Hm (x & y & I & H).
  assert (Hm0 : forall x y, inside B x y = true -> 0 <= magnitude B x y) by (intros; apply Hm; assumption).
  assert (D : drops (cleanup_pass B p)).
  { apply drops_steps. apply Forall_forall. intros f Hf. apply in_map_iff in Hf. destruct Hf as (q & <- & _). apply cleanup_column_drops. }
  destruct (D (initial (p + 1)) ltac:(intros x' y'; reflexivity)) as [Br | [_ C]]; [exact Br | exfalso].
  pose proof (cleanup_stage B p G Hp (initial (p + 1)) (initial_stage B p Hm Hp) x y I) as (Cs & _ & L).
  unfold consistent in Cs. rewrite (C x y), L in Cs. symmetry in Cs. apply negb_false_iff, Z.eqb_eq in Cs. rewrite Z.shiftr_div_pow2 in Cs by exact Hp.
  assert (1 <= magnitude B x y / 2 ^ p) by (apply Z.div_le_lower_bound; [apply Z.pow_pos_nonneg; lia | lia]). lia.
Qed.

(** ** Every rate is positive *)

Fixpoint opening (ps : list piece) (rates : list Z) : Prop :=
  match ps, rates with
  | P :: ps, r :: rates => 1 <= r /\ if ends_of P then True else opening ps rates
  | _, _ => True
  end.

Lemma wipe_late : forall start reset s, Late start s -> Late start (wipe reset s).
Proof. intros start reset s L. unfold wipe. destruct reset; exact L. Qed.

Lemma run_opening : forall start pterm reset ps s, Inv start (2 ^ 15) (2 ^ 16) s -> (Late start s \/ Lim start (2 ^ 27) s /\ hushed s /\ match ps with [] => True | P :: _ => breaks (out_of P) end) ->
  wf (Some false) ps -> bp s - start + room ps < 2 ^ 32 -> opening ps (fst (run start pterm reset false ps s)).
Proof.
  intros start pterm reset. induction ps as [| P ps IH]; intros s I L W R; cbn [run opening]; [exact Logic.I |].
  cbn [wf] in W. destruct W as (Er & Ho & W). cbn [room] in R. unfold turn. rewrite Er. cbv zeta.
  assert (X : Inv start (2 ^ 15) (2 ^ 16) (code_mq start (out_of P) s) /\ Late start (code_mq start (out_of P) s)).
  { destruct L as [L | (L & H & Br)]; [apply code_late; assumption | apply breaks_late; assumption]. }
  destruct X as [I1 L1]. pose proof (code_mq_bp start (out_of P) s) as B1. set (y := code_mq start (out_of P) s) in *. pose proof (room_nonneg ps) as Hr.
  assert (Hs : start - 1 <= bp y) by (destruct I1; assumption).
  destruct (ends_of P) eqn:Ee.
  - destruct (run start pterm reset true ps _) as [rates sE]. cbn [fst opening]. split; [| exact Logic.I].
    pose proof (close_late start pterm y I1 L1). pose proof (close_bp start pterm y). unfold numbytes. rewrite u32_small by lia. lia.
  - rewrite Er in W. specialize (IH (wipe reset y) (wipe_inv _ _ _ I1) (or_introl (wipe_late _ _ _ L1)) W). rewrite (proj1 (wipe_bp reset y)) in IH.
    destruct (run start pterm reset false ps (wipe reset y)) as [rates sE]. cbn [fst opening] in *. split; [| apply IH; lia].
    rewrite add_u32. unfold numbytes. rewrite u32_small by lia. lia.
Qed.

Lemma laid_positive : forall start reset b e ps from cx acc rates, laid start reset b e from cx acc ps rates ->
  (start + 1 <= from \/ start <= from /\ opening ps rates /\ wf (Some false) ps) -> ps <> [] \/ start + 1 <= from -> Forall (fun r => 1 <= r) rates /\ start + 1 <= e.
Proof.
  intros start reset b e. induction ps as [| P ps IH]; intros from cx acc rates H O N; cbn [laid] in H.
  - destruct rates; [| contradiction]. destruct N as [N | N]; [congruence |]. split; [constructor | lia].
  - destruct rates as [| r rates]; [contradiction |]. destruct (ends_of P) eqn:Ee.
    + destruct H as (H1 & _ & cx' & _ & H2). assert (Hr : 1 <= r) by (destruct O as [O | (_ & O & _)]; [lia | cbn [opening] in O; lia]).
      assert (Hf : start + 1 <= start + r) by lia. destruct (IH _ _ _ _ H2 (or_introl Hf) (or_intror Hf)) as [F E]. split; [constructor; assumption | exact E].
    + destruct H as (H1 & H2). destruct O as [O | (O1 & O2 & O3)].
      * destruct (IH _ _ _ _ H2 (or_introl O) (or_intror O)) as [F E]. split; [constructor; [lia | exact F] | exact E].
      * cbn [opening wf] in O2, O3. rewrite Ee in O2, O3. destruct O2 as [O2 O4]. destruct O3 as (O5 & _ & O6). rewrite O5 in O6.
        destruct (IH _ _ _ _ H2 (or_intror (conj O1 (conj O4 O6)))) as [F E]; [left; intros ->; cbn [wf] in O6; discriminate |].
        split; [constructor; assumption | exact E].
Qed.

Lemma cap_positive : forall N rates, 1 <= N -> Forall (fun r => 1 <= r) rates -> Forall (fun r => 1 <= r) (fst (cap_rates rates N)) /\ 1 <= snd (cap_rates rates N).
Proof.
  intros N. induction rates as [| r rates IH]; intros HN F; cbn [cap_rates]; [split; [constructor | exact HN] |].
  inversion F as [| r' l F1 F2]. subst r' l. specialize (IH HN F2). destruct (cap_rates rates N) as [l last]. cbn [fst snd] in IH. destruct IH as [I1 I2].
  destruct (last <? r); cbn [fst snd]; split; try assumption; constructor; assumption.
Qed.
Lemma trim_some : forall data rates, Forall (fun r => 1 <= r) rates -> exists rs, trim_rates data rates = Some rs.
Proof.
  intros data. induction rates as [| r rates IH]; intros F; cbn [trim_rates]; [eexists; reflexivity |].
  inversion F as [| r' l F1 F2]. subst r' l. destruct (IH F2) as [rs ->]. destruct (Z.leb_spec r 0); [lia |]. eexists. reflexivity.
Qed.

Theorem encode_total : forall start w h orient sty x m,
  1 <= w -> 1 <= h -> w * h <= 4096 -> 0 <= orient < 4 -> (forall i j, 0 <= i < w -> 0 <= j < h -> in_i32 (x i j)) ->
  bytes m -> m (start - 1) <> 255 -> exists k, encode_cblk start w h orient sty (stripe_order w h x) m = Some k.
Proof.
  intros start w h orient sty x m Hw Hh Hs Ho Hx Hb Hm.
  destruct (planes_cases w h x Hw Hh Hx) as [(P1 & P2 & P3) | (P1 & _)].
  2:{ destruct (encode_nothing start w h orient sty x m Hw Hh Hx Hm) as (N & E & _); [lia | eexists; exact E]. }
  destruct (encode_shape start w h orient sty x m Hw Hh Hs Ho Hx Hb Hm P1) as (K & HK & E). cbv zeta in E. rewrite E. clear E.
  pose proof (played_ok start w h orient sty x m Hw Hh Hs Ho Hx Hb Hm K P1 HK) as (R1 & R2 & R3 & R4 & R5).
  set (n := planes w h x) in *. set (B := block_of w h orient sty x). assert (G : good B) by (split; [exact Hw | split; [exact Hh | exact Ho]]).
  assert (Hmag : forall a b, inside B a b = true -> 0 <= magnitude B a b < 2 ^ (n - 1 + 1)) by (intros a b I; apply inside_bounds in I; replace (n - 1 + 1) with n by lia; cbn [B block_of magnitude]; apply P2; apply I).
  destruct (plan_some w h orient sty x Hx K ltac:(fold n; lia)) as (P & ps & EP).
  assert (EP1 : out_of P = pass_out (is_raw sty n (n - 1) 2) B sty (n - 1) 2 (initial n)).
  { unfold plan in EP. cbn [pieces] in EP. fold n in EP. destruct (Z.ltb_spec (n - 1) 0); [lia |]. injection EP as <- _. reflexivity. }
  assert (Br : breaks (out_of P)).
  { rewrite EP1. unfold pass_out. apply breaks_before. change (coding_pass (is_raw sty n (n - 1) 2) B (n - 1) 2) with (cleanup_pass B (n - 1)).
    replace (initial n) with (initial (n - 1 + 1)) by (f_equal; lia). apply first_breaks; [exact G | lia | exact Hmag |].
    destruct P3 as (a & b & Ha & Hb' & Hc). exists a, b. split; [apply inside_true; assumption | exact Hc]. }
  pose proof (init_fresh start m reset_ctxs Hb Hm reset_valid) as F.
  assert (W : wf (Some false) (plan w h orient sty x (S K))).
  { apply pieces_wf; try (fold n; lia); [exact G |]. right. rewrite raw_not_cleanup. split; [reflexivity | lia]. }
  assert (O : opening (plan w h orient sty x (S K)) (fst (played start w h orient sty x m (S K)))).
  { unfold played. apply run_opening; [apply (fr_inv _ _ F) | | exact W |].
    - right. split; [| split; [split; reflexivity | rewrite EP; exact Br]]. right. split; [reflexivity |]. rewrite (fr_c _ _ F), (fr_a _ _ F), (fr_ct _ _ F). lia.
    - pose proof (pieces_room B sty n (S K) (n - 1) 2 (initial n) G Hs) as R. assert (E1 : bp (init_enc start m reset_ctxs) + 1 = start) by (unfold init_enc; cbn [check bp]; lia).
      unfold plan. fold B n. lia. }
  destruct (laid_positive _ _ _ _ _ _ _ _ _ R5) as [F1 F2]; [right; split; [lia | split; assumption] | left; rewrite EP; discriminate |].
  destruct (cap_positive (bp (snd (played start w h orient sty x m (S K))) - start) _ ltac:(lia) F1) as [F3 _].
  destruct (trim_some (bytes_at (buf (snd (played start w h orient sty x m (S K)))) start (bp (snd (played start w h orient sty x m (S K))) - start)) _ F3) as [rs ->].
  eexists. reflexivity.
Qed.
