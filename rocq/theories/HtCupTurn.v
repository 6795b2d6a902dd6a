(** Proof part of C74: one turn of the loops is one pair of quads. *)

From Coq Require Import ZArith List Bool Lia.
From Verif Require Import Ints HtModel HtSpec HtBits HtForward HtBackward HtUvlcProps HtReadProps HtLuts HtLutsProps HtCupModel HtCupSpec HtCupVlc HtCupSamples HtCupPair HtCupLines.
Import ListNotations.
Local Open Scope Z_scope.

Definition first_of (above : option (list cell)) : bool := match above with None => true | Some _ => false end.
Definition above_ok (p : Z) (above : option (list cell)) : Prop := match above with None => True | Some a => cells_ok p a end.

Lemma mode_ok : forall q0 q1, Z.lor (Z.shiftr (Z.land q0 8) 3) (Z.shiftr (Z.land q1 8) 2) = mode_of (q_uoff q0) (q_uoff q1).
Proof.
  intros q0 q1. change 8 with (2 ^ 3). rewrite !land_bit by lia. unfold mode_of, q_uoff. destruct (Z.testbit q0 3), (Z.testbit q1 3); reflexivity.
Qed.
Lemma lstate_app : forall l c j, (j < length l)%nat -> lstate (l ++ c) j = lstate l j.
Proof. intros l c j J. unfold lstate. rewrite at_app by exact J. destruct j as [| j]; [reflexivity |]. cbn [before]. rewrite at_app by lia. reflexivity. Qed.

(** [line_state] after the two quads. *)
Lemma pair_ls : forall w nq above done ls ls0 c ls' ls1 ls2 a0 b0 c0 d0 a1 b1 c1 d1 c', let i := Z.of_nat (length done) in
  ls_inv w nq above done ls ls0 c -> (length done + 2 <= nq)%nat ->
  (forall j, j <> i + 1 -> j <> i + 2 -> ls' j = ls j) ->
  (forall j, ls1 j = if j =? i + 1 then mark (expo d0) else if j =? i then mark (Z.max (expo (before done (length done) 3)) (expo b0)) else ls' j) ->
  (forall j, ls2 j = if j =? i + 1 + 1 then mark (expo d1) else if j =? i + 1 then mark (Z.max (expo d0) (expo b1)) else ls1 j) ->
  (2 * Z.of_nat (length done + 2) < w -> c' = match above with None => bit (sig a1 || sig b1) + 2 * bit (sig c1) + 4 * bit (sig d1) | Some _ => 2 * bit (sig c1 || sig d1) end) ->
  ls_inv w nq above (done ++ [[a0; b0; c0; d0]; [a1; b1; c1; d1]]) ls2 (ls (i + 2)) c'.
Proof.
  intros w nq above done ls ls0 c ls' ls1 ls2 a0 b0 c0 d0 a1 b1 c1 d1 c' i (I1 & I2 & I3) Hq Q0 Q1 Q2 Hc. unfold ls_inv. rewrite app_length. cbn [length]. set (k := length done) in *.
  set (done' := done ++ [[a0; b0; c0; d0]; [a1; b1; c1; d1]]).
  assert (B2 : forall n, before done' (k + 2) n = nth n [a1; b1; c1; d1] None).
  { intros n. replace (k + 2)%nat with (S (k + 1)) by lia. cbn [before]. apply at_new1. }
  cbv zeta. split; [| split].
  - rewrite Q2. replace (Z.of_nat (k + 2)) with (i + 1 + 1) by (unfold i; lia). rewrite Z.eqb_refl, B2. reflexivity.
  - intros j J. rewrite Q2, Q1. destruct (Z.eqb_spec (Z.of_nat j) (i + 1 + 1)); [unfold i in *; lia |]. destruct (Z.eqb_spec (Z.of_nat j) (i + 1)) as [E | E].
    + replace j with (k + 1)%nat by (unfold i in *; lia). unfold lstate. rewrite before_S. unfold done'. rewrite at_new1, at_new0. reflexivity.
    + destruct (Z.eqb_spec (Z.of_nat j) i) as [E' | E'].
      * replace j with k by (unfold i in *; lia). unfold lstate. unfold done', k. rewrite at_new0, before_app. reflexivity.
      * rewrite Q0 by lia. assert (j < k)%nat by (unfold i in *; lia). rewrite I2 by assumption. unfold done'. rewrite lstate_app by assumption. reflexivity.
  - destruct above as [a |].
    + destruct I3 as (I3 & I4 & I5). split; [replace (i + 2) with (Z.of_nat (k + 2)) by (unfold i; lia); apply I4; lia |]. split; [| intros Hw; rewrite !B2; apply Hc, Hw].
      intros j J. rewrite Q2, Q1. destruct (Z.eqb_spec (Z.of_nat j) (i + 1 + 1)); [unfold i in *; lia |]. destruct (Z.eqb_spec (Z.of_nat j) (i + 1)); [unfold i in *; lia |]. destruct (Z.eqb_spec (Z.of_nat j) i); [unfold i in *; lia |].
      rewrite Q0 by (unfold i; lia). apply I4. lia.
    + intros Hw. unfold context. rewrite !B2. apply Hc, Hw.
Qed.

Lemma pair_ok : forall buf w h p zp1 L above done data0 s sp n nq, let i := length done in let y := 2 * Z.of_nat (length L) in
  Forall byte buf -> 1 <= p <= 30 -> zp1 + p <= 31 -> 2 * Z.of_nat i < w -> y < h -> (i + 2 <= nq)%nat -> cells_ok p done -> above_ok p above ->
  src_inv buf (k_run s) (k_mel s) (k_vlc s) (k_ms s) (S n) sp -> ls_inv w nq above done (k_ls s) (k_ls0 s) (k_c s) -> data_inv p w h L done data0 (k_data s) ->
  match pair_spec (if first_of above then vlc_tbl0 else vlc_tbl1) w h zp1 y above done sp with
  | None => False
  | Some None => pair (first_of above) buf w h p zp1 y (2 * Z.of_nat i) s = Some None
  | Some (Some (done', sp')) => exists s', pair (first_of above) buf w h p zp1 y (2 * Z.of_nat i) s = Some (Some s') /\ length done' = (i + 2)%nat /\ cells_ok p done' /\
      src_inv buf (k_run s') (k_mel s') (k_vlc s') (k_ms s') n sp' /\ ls_inv w nq above done' (k_ls s') (k_ls0 s') (k_c s') /\ data_inv p w h L done' data0 (k_data s')
  end.
Proof.
  intros buf w h p zp1 L above done data0 s sp n nq i y B Rp Rz Hw Hh Hq Cd Ca (SV & SM & SF) LI DI.
  destruct sp as [V sm M]. cbn [s_vlc s_mel s_ms] in SV, SM, SF. unfold pair_spec, pair. fold i. cbv zeta. fold (first_of above). set (first := first_of above) in *. set (tbl := if first then vlc_tbl0 else vlc_tbl1).
  assert (T : tbl = vlc_tbl0 \/ tbl = vlc_tbl1) by (unfold tbl; destruct first; auto). replace (2 * Z.of_nat i / 2) with (Z.of_nat i) by (rewrite Z.mul_comm, Z.div_mul by lia; reflexivity).
  set (ls := k_ls s) in *.
  (* contexts and predictors *)
  assert (F1 : full_c first (k_c s) (k_ls0 s) (ls (Z.of_nat i + 1)) = context above i (fun n => sig (before done i n)) /\ 0 <= context above i (fun n => sig (before done i n)) < 8).
  { destruct LI as (_ & _ & LI). fold i in LI. unfold first. destruct above as [a |]; cbn [first_of].
    - destruct LI as (E0 & E1 & E2). rewrite E0, (E2 Hw). replace (Z.of_nat i + 1) with (Z.of_nat (i + 1)) by lia. rewrite E1 by lia. apply (full_c_ok p a i _ (fun n => sig (before done i n)) Ca eq_refl).
    - split; [exact (LI Hw) | apply first_c_ok]. }
  assert (F2 : forall q, full_c first (next_c first q) (ls (Z.of_nat i + 1)) (ls (Z.of_nat i + 2)) = context above (i + 1) (q_sig q) /\ 0 <= context above (i + 1) (q_sig q) < 8).
  { intros q. destruct LI as (_ & _ & LI). fold i in LI. destruct (next_facts q) as (N1 & N2 & _). unfold first. destruct above as [a |]; cbn [first_of].
    - destruct LI as (E0 & E1 & E2). replace (Z.of_nat i + 1) with (Z.of_nat (i + 1)) by lia. replace (Z.of_nat i + 2) with (Z.of_nat (i + 1 + 1)) by lia. rewrite !E1 by lia. apply (full_c_ok p a (i + 1) _ (q_sig q) Ca N2).
    - split; [exact N1 | apply first_c_ok]. }
  assert (F3 : forall q u, 0 <= u <= 39 -> add_emax first (u + 1) q (k_ls0 s) (ls (Z.of_nat i + 1)) = kappa above i q + u /\ 1 <= kappa above i q).
  { intros q u U. destruct LI as (_ & _ & LI). fold i in LI. unfold first. destruct above as [a |]; cbn [first_of].
    - destruct LI as (E0 & E1 & E2). rewrite E0. replace (Z.of_nat i + 1) with (Z.of_nat (i + 1)) by lia. rewrite E1 by lia. apply (emax_ok p); assumption.
    - cbn [add_emax kappa]. lia. }
  assert (F4 : forall q u, 0 <= u <= 39 -> add_emax first (u + 1) q (ls (Z.of_nat i + 1)) (ls (Z.of_nat i + 2)) = kappa above (i + 1) q + u /\ 1 <= kappa above (i + 1) q).
  { intros q u U. destruct LI as (_ & _ & LI). fold i in LI. unfold first. destruct above as [a |]; cbn [first_of].
    - destruct LI as (E0 & E1 & E2). replace (Z.of_nat i + 1) with (Z.of_nat (i + 1)) by lia. replace (Z.of_nat i + 2) with (Z.of_nat (i + 1 + 1)) by lia. rewrite !E1 by lia. apply (emax_ok p); assumption.
    - cbn [add_emax kappa]. lia. }
  (* first quad *)
  destruct (fetch_all buf (k_vlc s) (8 * n) V B ltac:(replace (8 + 8 * n)%nat with (8 * S n)%nat by lia; exact SV)) as (w0 & v0 & r & E0 & H0 & Lr & B0 & W0). rewrite E0.
  destruct F1 as (F1 & F1'). rewrite F1. pose proof (bholds_long _ _ _ _ H0) as LV.
  destruct (quad_vlc_ok tbl buf _ (k_run s) (k_mel s) w0 (8 + 12 * n) V sm M B T F1' ltac:(replace (4 + (8 + 12 * n))%nat with (12 * S n)%nat by lia; exact SM) ltac:(lia) (W0 7%nat ltac:(lia))) as (q0 & run1 & m1 & sm1 & Q1 & Q2 & SM1 & G0 & L0).
  rewrite Q1, Q2. clear Q1 Q2 F1 F1' SM SV E0 W0.
  destruct (advance_all buf v0 r V (Z.land q0 7) H0 ltac:(lia)) as (w1 & v1 & E1 & H1 & B1 & R1 & W1). rewrite E1. clear E1. set (V1 := skipn (Z.to_nat (Z.land q0 7)) V) in *.
  pose proof (bholds_long _ _ _ _ H1) as LV1.
  (* second quad *)
  replace (2 * Z.of_nat i + 2 <? w) with (2 * Z.of_nat (i + 1) <? w) by (f_equal; lia).
  assert (St2 : exists q1 c run2 m2 sm2 w2 v2 V2,
    (if 2 * Z.of_nat (i + 1) <? w then match quad_vlc tbl buf (full_c first (next_c first q0) (ls (Z.of_nat i + 1)) (ls (Z.of_nat i + 2))) run1 m1 w1 with None => None
       | Some (q1, run, m) => match rev_advance v1 (Z.land q1 7) with Some (w, vlc) => Some (q1, next_c first q1, run, m, w, vlc) | None => None end end
     else Some (0, next_c first q0, run1, m1, w1, v1)) = Some (q1, c, run2, m2, w2, v2) /\
    (if 2 * Z.of_nat (i + 1) <? w then quad_code tbl (context above (i + 1) (q_sig q0)) (mkSrc V1 sm1 M) else Some (0, mkSrc V1 sm1 M)) = Some (q1, mkSrc V2 sm2 M) /\
    Mok buf run2 m2 (4 + 12 * n) sm2 /\ good_e q1 /\ bholds buf v2 r V2 /\ 18 <= v_bits v2 /\ 0 <= w2 < 2 ^ 32 /\ w2 mod 2 ^ 18 = number (firstn 18 V2) /\ (2 * Z.of_nat (i + 2) < w -> c = next_c first q1)).
  { destruct (Z.ltb_spec (2 * Z.of_nat (i + 1)) w) as [K | K].
    - destruct (F2 q0) as (F2a & F2b). rewrite F2a.
      destruct (quad_vlc_ok tbl buf _ run1 m1 w1 (4 + 12 * n) V1 sm1 M B T F2b SM1 ltac:(lia) (W1 7%nat ltac:(lia) ltac:(lia))) as (q1 & run2 & m2 & sm2 & Q1 & Q2 & SM2 & G1 & L1). rewrite Q1.
      destruct (advance_all buf v1 r V1 (Z.land q1 7) H1 ltac:(lia)) as (w2 & v2 & E2 & H2 & B2 & R2 & W2). rewrite E2.
      do 8 eexists. split; [reflexivity |]. split; [exact Q2 |]. split; [exact SM2 |]. split; [exact G1 |]. split; [exact H2 |]. split; [lia |]. split; [exact R2 |]. split; [apply (W2 18%nat); lia | intros _; reflexivity].
    - exists 0, (next_c first q0), run1, m1, sm1, w1, v1, V1. split; [reflexivity |]. split; [reflexivity |]. split; [apply (Mok_le _ _ _ _ _ _ SM1); lia |]. split; [apply good_zero |]. split; [exact H1 |]. split; [lia |].
      split; [exact R1 |]. split; [apply (W1 18%nat); lia | lia]. }
  destruct St2 as (q1 & c & run2 & m2 & sm2 & w2 & v2 & V2 & Q1 & Q2 & SM2 & G1 & H2 & B2 & R2 & W2 & Hc). rewrite Q1, Q2. clear Q1 Q2 SM1 F2 H1 W1 R1 B1 LV1 V1 v1 w1.
  (* u *)
  rewrite mode_ok. pose proof (bholds_long _ _ _ _ H2) as LV2.
  destruct (u_agrees_ok first (q_uoff q0) (q_uoff q1) V2 w2 run2 m2 buf (12 * n) sm2 M B SM2 R2 ltac:(lia) W2) as (mode & run3 & m3 & sm3 & used & u0 & u1 & Q1 & Q2 & Ru & Q3 & SM3 & U0 & U1 & Uo0 & Uo1).
  rewrite Q1, Q2, Q3. clear Q1 Q2 Q3. destruct (F3 q0 u0 U0) as (Ek0 & K0). destruct (F4 q1 u1 U1) as (Ek1 & K1). rewrite Ek0, Ek1. clear F3 F4 Ek0 Ek1.
  set (A0 := kappa above i q0 + u0) in *. set (A1 := kappa above (i + 1) q1 + u1) in *.
  destruct (advance_all buf v2 r V2 used H2 ltac:(lia)) as (w3 & v3 & E3 & H3 & _ & _ & _). rewrite E3. clear E3.
  destruct ((zp1 <? A0) || (zp1 <? A1)) eqn:Bad; cbn [orb].
  { rewrite andb_true_r. destruct first; reflexivity. }
  rewrite andb_false_r. apply orb_false_elim in Bad. destruct Bad as (Bad0 & Bad1). apply Z.ltb_ge in Bad0, Bad1.
  (* places *)
  rewrite (locs_eq w h (2 * Z.of_nat i) y). destruct (locs_facts (cols w (2 * Z.of_nat i)) (tall h y) (cols_range w (2 * Z.of_nat i) Hw)) as (Lc & Lo). rewrite Lo.
  assert (O0 : out_of (cols w (2 * Z.of_nat i)) (tall h y) 0 q0 = outside w h y i q0) by (apply (out_eq w h (2 * Z.of_nat i) y Hw Hh 0 i q0 (or_introl eq_refl)); lia).
  assert (O1 : out_of (cols w (2 * Z.of_nat i)) (tall h y) 4 q1 = outside w h y (i + 1) q1) by (apply (out_eq w h (2 * Z.of_nat i) y Hw Hh 2 (i + 1) q1 (or_intror eq_refl)); lia).
  rewrite O0, O1. destruct (outside w h y i q0 || outside w h y (i + 1) q1) eqn:Out; [reflexivity |].
  apply orb_false_elim in Out. destruct Out as (Out0 & Out1).
  assert (Ins : forall k (e : Z), outside w h y k e = false -> forall n, (n < 4)%nat -> q_sig e n = true -> (2 * Z.of_nat k + Z.of_nat (Nat.div n 2) <? w) && (y + Z.of_nat (Nat.modulo n 2) <? h) = true).
  { clear. intros k e O n N S. unfold outside in O. cbn [existsb] in O.
    assert (G : forall b1 b2 b3 b4 : bool, b1 || (b2 || (b3 || (b4 || false))) = false -> b1 = false /\ b2 = false /\ b3 = false /\ b4 = false) by (intros [|] [|] [|] [|]; cbn; auto). apply G in O. destruct O as (O0 & O1 & O2 & O3).
    destruct n as [| [| [| [| n]]]]; try lia; rewrite S in *; cbn [andb] in *; rewrite !Z.ltb_antisym; match goal with O : ?a || ?b = false |- negb ?a && negb ?b = true => apply orb_false_elim in O; destruct O as (-> & ->); reflexivity end. }
  set (ls' := if first then ls else set (set ls (Z.of_nat i + 2) 0) (Z.of_nat i + 1) 0).
  assert (Ls' : forall j, j <> Z.of_nat i + 1 -> j <> Z.of_nat i + 2 -> ls' j = ls j).
  { intros j J1 J2. unfold ls'. destruct first; [reflexivity |]. rewrite !set_eq. destruct (Z.eqb_spec j (Z.of_nat i + 1)); [lia |]. destruct (Z.eqb_spec j (Z.of_nat i + 2)); [lia | reflexivity]. }
  assert (Lz : first = false -> ls' (Z.of_nat i + 1) = 0 /\ ls' (Z.of_nat i + 2) = 0).
  { intros F. unfold ls'. rewrite F, !set_eq, !Z.eqb_refl. destruct (Z.eqb_spec (Z.of_nat i + 2) (Z.of_nat i + 1)); [lia |]. split; reflexivity. }
  clearbody ls'.
  destruct (quad_ok first buf w p q0 A0 (locsf (cols w (2 * Z.of_nat i)) (tall h y)) 0 (Z.of_nat i) (y * w + 2 * Z.of_nat i) (k_ms s) (k_data s) ls' M (skipn (Z.to_nat used) V2) sm3 (32 + 64 * n)
    (fun n => (2 * Z.of_nat i + Z.of_nat (Nat.div n 2) <? w) && (y + Z.of_nat (Nat.modulo n 2) <? h)) (expo (before done i 3)) B) as (a0 & b0 & c0 & d0 & f1 & ls1 & M1 & S1 & S2 & SF1 & Fa0 & Fb0 & Fc0 & Fd0 & Q1).
  { replace (32 + (32 + 64 * n))%nat with (64 * S n)%nat by lia. exact SF. } { exact G0. } { split; [exact Rp |]. split; [unfold A0; lia |]. split; [lia |]. intros X. specialize (Uo0 X). unfold A0. lia. } { lia. }
  { intros k K. rewrite Z.add_0_l, Lc by lia. exact (insf_eq w h (2 * Z.of_nat i) y Hw Hh 0 k (or_introl eq_refl) K) || (rewrite <- (insf_eq w h (2 * Z.of_nat i) y Hw Hh 0 k (or_introl eq_refl) K); f_equal; lia) || (pose proof (insf_eq w h (2 * Z.of_nat i) y Hw Hh 0 k (or_introl eq_refl) K) as X; cbn [Nat.mul Nat.add Z.of_nat] in X; rewrite Z.add_0_r in X; exact X). }
  { apply Ins, Out0. } { rewrite Ls' by lia. destruct LI as (LI & _). exact LI. } { apply (expo_range p), before_ok, Cd. } { intros F. apply (Lz F). }
  rewrite S1, S2.
  destruct (quad_ok first buf w p q1 A1 (locsf (cols w (2 * Z.of_nat i)) (tall h y)) 4 (Z.of_nat i + 1) (y * w + 2 * Z.of_nat i + 2) f1
    (wr ((2 * Z.of_nat i + Z.of_nat (Nat.div 3 2) <? w) && (y + Z.of_nat (Nat.modulo 3 2) <? h)) (wr ((2 * Z.of_nat i + Z.of_nat (Nat.div 2 2) <? w) && (y + Z.of_nat (Nat.modulo 2 2) <? h))
      (wr ((2 * Z.of_nat i + Z.of_nat (Nat.div 1 2) <? w) && (y + Z.of_nat (Nat.modulo 1 2) <? h)) (wr ((2 * Z.of_nat i + Z.of_nat (Nat.div 0 2) <? w) && (y + Z.of_nat (Nat.modulo 0 2) <? h)) (k_data s) (y * w + 2 * Z.of_nat i) (enc p a0))
        (y * w + 2 * Z.of_nat i + w) (enc p b0)) (y * w + 2 * Z.of_nat i + 1) (enc p c0)) (y * w + 2 * Z.of_nat i + 1 + w) (enc p d0)) ls1 M1 (skipn (Z.to_nat used) V2) sm3 (64 * n)
    (fun n => (2 * Z.of_nat (i + 1) + Z.of_nat (Nat.div n 2) <? w) && (y + Z.of_nat (Nat.modulo n 2) <? h)) (expo d0) B) as (a1 & b1 & c1 & d1 & f2 & ls2 & M2 & S3 & S4 & SF2 & Fa1 & Fb1 & Fc1 & Fd1 & Q2).
  { exact SF1. } { exact G1. } { split; [exact Rp |]. split; [unfold A1; lia |]. split; [lia |]. intros X. specialize (Uo1 X). unfold A1. lia. } { lia. }
  { intros k K. replace (4 + Z.of_nat k) with (Z.of_nat (2 * 2 + k)) by lia. rewrite Lc by lia. rewrite (insf_eq w h (2 * Z.of_nat i) y Hw Hh 2 k (or_intror eq_refl) K). f_equal. f_equal. lia. }
  { apply Ins, Out1. } { rewrite Q1, Z.eqb_refl. reflexivity. } { apply (expo_range p), Fd0. }
  { intros F. rewrite Q1. destruct (Z.eqb_spec (Z.of_nat i + 1 + 1) (Z.of_nat i + 1)); [lia |]. destruct (Z.eqb_spec (Z.of_nat i + 1 + 1) (Z.of_nat i)); [lia |]. replace (Z.of_nat i + 1 + 1) with (Z.of_nat i + 2) by lia. apply (Lz F). }
  cbv beta in S3. rewrite S3, S4. cbv beta.
  destruct (quad_sig _ _ _ _ _ _ _ _ S4) as (Sa & Sb & Sc & Sd).
  eexists. split; [reflexivity |]. cbn [k_run k_mel k_vlc k_ms k_c k_data k_ls k_ls0]. split; [rewrite app_length; reflexivity |]. split.
  { apply Forall_app. split; [exact Cd |]. repeat constructor; assumption. }
  split; [split; [exists r; split; [exact H3 | exact Lr] | split; [exact SM3 | exact SF2]] |]. split.
  - apply (pair_ls w nq above done ls (k_ls0 s) (k_c s) ls' ls1 ls2 a0 b0 c0 d0 a1 b1 c1 d1 c LI Hq Ls' Q1 Q2). fold i. intros Hw2. rewrite (Hc Hw2), Sa, Sb, Sc, Sd. destruct (next_facts q1) as (N1 & N2 & _).
    unfold first. destruct above; cbn [first_of]; assumption.
  - match goal with |- data_inv _ _ _ _ _ _ ?D2 => match goal with _ : quad _ _ _ _ _ _ _ _ _ _ f1 ?D1 _ = _ |- _ =>
      destruct (quad_data p w h (Z.of_nat i) (Z.of_nat (length L)) (k_data s) a0 b0 c0 d0 (fun n => (2 * Z.of_nat i + Z.of_nat (Nat.div n 2) <? w) && (y + Z.of_nat (Nat.modulo n 2) <? h)) y (y * w + 2 * Z.of_nat i) eq_refl eq_refl ltac:(lia) ltac:(lia) (fun n _ => eq_refl)) as (P1 & P2);
      destruct (quad_data p w h (Z.of_nat i + 1) (Z.of_nat (length L)) D1 a1 b1 c1 d1 (fun n => (2 * Z.of_nat (i + 1) + Z.of_nat (Nat.div n 2) <? w) && (y + Z.of_nat (Nat.modulo n 2) <? h)) y (y * w + 2 * Z.of_nat i + 2) eq_refl ltac:(lia) ltac:(lia) ltac:(lia)) as (P3 & P4);
      [intros k _; cbv beta; do 3 f_equal; lia |]; exact (pair_data p w h L done data0 (k_data s) D1 D2 _ _ ltac:(lia) DI P1 P2 P3 P4) end end.
Qed.
