(** The visits of an iterator are the packets of its volume, in order. *)

From Coq Require Import ZArith List Bool Lia Sorted.
From Verif Require Import Ints Mem PiModel PiRun PiLoops PiSpec PiMath.
Import ListNotations.
Local Open Scope Z_scope.

Record suits (T : tile) (v : volume) (g : cfg) : Prop := {
  su_comps : comps g = map (make_comp (t_x0 T) (t_y0 T) (t_x1 T) (t_y1 T)) (t_comps T);
  su_x0 : tx0 g = t_x0 T; su_x1 : tx1 g = t_x1 T; su_y0 : ty0 g = t_y0 T; su_y1 : ty1 g = t_y1 T;
  su_lay0 : lay0 g = 0; su_lay1 : lay1 g = v_lay1 v;
  su_res0 : res0 g = v_res0 v; su_res1 : res1 g = v_res1 v;
  su_comp0 : comp0 g = v_comp0 v; su_comp1 : comp1 g = v_comp1 v; su_prec0 : prec0 g = 0;
  su_index : forall q, valid T q -> index_of g q < include_size g;
  su_inj : forall q q', valid T q -> valid T q' -> index_of g q = index_of g q' -> q = q' }.

(** ** Components and resolutions *)

Lemma par_wf : forall T c, wf T -> 0 <= c < Z.of_nat (length (t_comps T)) ->
  let p := par T c in 1 <= sx p <= 255 /\ 1 <= sy p <= 255 /\ 1 <= nres p <= 33 /\
    Forall (fun e => 0 <= fst e <= 15 /\ 0 <= snd e <= 15) (exps p).
Proof.
  intros T c (_ & _ & _ & _ & _ & _ & H & _) Hc. cbv zeta. unfold par.
  rewrite Forall_forall in H. apply H. apply nth_In. lia.
Qed.

Lemma exp_bounds : forall T c r, wf T -> resolution T c r ->
  0 <= ex (par T c) r <= 15 /\ 0 <= ey (par T c) r <= 15 /\ 0 <= level (par T c) r <= 32 /\
  1 <= sx (par T c) <= 255 /\ 1 <= sy (par T c) <= 255.
Proof.
  intros T c r HW [Hc Hr]. destruct (par_wf T c HW Hc) as (X & Y & N & F).
  rewrite Forall_forall in F. destruct (F (nth (Z.to_nat r) (exps (par T c)) (0, 0))) as [E1 E2].
  { apply nth_In. unfold nres in Hr. lia. }
  unfold ex, ey, level. repeat split; lia.
Qed.

Lemma comp_at_spec : forall T v g c, suits T v g -> 0 <= c < Z.of_nat (length (t_comps T)) ->
  comp_at g c = make_comp (t_x0 T) (t_y0 T) (t_x1 T) (t_y1 T) (par T c).
Proof.
  intros T v g c S Hc. unfold comp_at, par. rewrite (su_comps _ _ _ S).
  rewrite (nth_indep _ (mkComp 1 1 []) (make_comp (t_x0 T) (t_y0 T) (t_x1 T) (t_y1 T) (mkParams 1 1 [])))
    by (rewrite map_length; lia).
  apply map_nth.
Qed.

Lemma make_ress_length : forall a b c d e f l, length (make_ress a b c d e f l) = length l.
Proof. induction l as [| [? ?] l IH]; cbn [make_ress length]; [reflexivity | rewrite IH; reflexivity]. Qed.

Lemma numres_make : forall a b c d p, numres (make_comp a b c d p) = nres p.
Proof. intros. unfold numres, nres. cbn [make_comp ress]. rewrite make_ress_length. reflexivity. Qed.

Lemma make_ress_nth : forall a b c d e f l n, (n < length l)%nat ->
  nth n (make_ress a b c d e f l) (mkRes 0 0 0 0) =
  let q := nth n l (0, 0) in let lev := Z.of_nat (length l) - 1 - Z.of_nat n in
  mkRes (fst q) (snd q) (count a c e lev (fst q)) (count b d f lev (snd q)).
Proof.
  induction l as [| [e1 e2] l IH]; intros n Hn; cbn [length] in Hn; [lia |]. destruct n; cbn [make_ress nth].
  - cbn [fst snd length]. replace (Z.of_nat (S (length l)) - 1 - Z.of_nat 0) with (Z.of_nat (length l)) by lia. reflexivity.
  - rewrite IH by lia. cbv zeta. cbn [length].
    replace (Z.of_nat (S (length l)) - 1 - Z.of_nat (S n)) with (Z.of_nat (length l) - 1 - Z.of_nat n) by lia. reflexivity.
Qed.

Lemma res_of_make : forall T c r, wf T -> resolution T c r ->
  res_of (make_comp (t_x0 T) (t_y0 T) (t_x1 T) (t_y1 T) (par T c)) r =
  mkRes (ex (par T c) r) (ey (par T c) r) (wide T c r) (high T c r).
Proof.
  intros T c r HW HR. pose proof (exp_bounds T c r HW HR) as (E1 & E2 & L & X & Y).
  destruct HR as [Hc Hr]. destruct HW as (W1 & W2 & W3 & W4 & _).
  unfold res_of. cbn [make_comp ress]. rewrite make_ress_nth by (unfold nres in Hr; lia). cbv zeta.
  fold (ex (par T c) r) (ey (par T c) r). rewrite Z2Nat.id by lia. fold (nres (par T c)). fold (level (par T c) r).
  rewrite !count_spec by lia. reflexivity.
Qed.

Lemma wide_nonneg : forall T c r, wf T -> resolution T c r -> 0 <= wide T c r /\ 0 <= high T c r.
Proof.
  intros T c r HW HR. pose proof (exp_bounds T c r HW HR) as (E1 & E2 & L & X & Y).
  pose proof (grid_bounds _ _ X L). pose proof (grid_bounds _ _ Y L).
  pose proof (pow_bounds _ _ E1). pose proof (pow_bounds _ _ E2).
  unfold wide, high. split; apply spans_nonneg; lia.
Qed.

Lemma area_bounds : forall T c r, wf T -> resolution T c r -> 0 <= wide T c r * high T c r < 2 ^ 32.
Proof.
  intros T c r HW HR. pose proof (wide_nonneg T c r HW HR) as [A B].
  destruct HW as (_ & _ & _ & _ & HL & HC & _ & R & M & H1 & H2 & H3).
  split; [apply Z.mul_nonneg_nonneg; assumption |]. specialize (H2 c r HR). destruct HR as [Hc Hr].
  specialize (H1 c Hc). assert (0 <= wide T c r * high T c r) by (apply Z.mul_nonneg_nonneg; assumption).
  set (C := Z.of_nat (length (t_comps T))) in *.
  assert (M <= C * M) by nia. assert (C * M <= R * (C * M)) by nia.
  assert (R * (C * M) <= (t_layers T + 1) * (R * (C * M))) by nia. lia.
Qed.

(** ** The precinct at a position *)

Lemma here_spec : forall T v g c r u w k, wf T -> suits T v g -> resolution T c r ->
  t_x0 T <= u < t_x1 T -> t_y0 T <= w < t_y1 T ->
  precinct_here g (comp_at g c) r u w = Some k <->
  0 <= k < wide T c r * high T c r /\ px T c r k = u /\ py T c r k = w.
Proof.
  intros T v g c r u w k HW HS HR Hu Hw. pose proof (exp_bounds T c r HW HR) as (E1 & E2 & L & X & Y).
  pose proof (area_bounds T c r HW HR) as AB. pose proof (wide_nonneg T c r HW HR) as [NW NH].
  rewrite (comp_at_spec T v g c HS) by apply HR. unfold precinct_here. rewrite (res_of_make T c r HW HR), numres_make.
  rewrite (su_x0 _ _ _ HS), (su_x1 _ _ _ HS), (su_y0 _ _ _ HS), (su_y1 _ _ _ HS).
  unfold px, py, wide, high in *. cbv zeta. set (p := par T c) in *. fold (level p r).
  cbn [make_comp dx dy pdx pdy pw ph]. destruct HW as (W1 & W2 & W3 & W4 & _).
  pose proof (grid_bounds _ _ X L) as GX. pose proof (grid_bounds _ _ Y L) as GY.
  pose proof (pow_bounds _ _ E1) as PX. pose proof (pow_bounds _ _ E2) as PY.
  rewrite !(shl64_small (sx p) (level p r)) by lia. rewrite !(shl64_small (sy p) (level p r)) by lia.
  rewrite !ceildiv64_spec by lia.
  pose proof (starts_spec u (t_x0 T) (sx p) (level p r) (ex p r) ltac:(lia) X L E1) as SX.
  pose proof (starts_spec w (t_y0 T) (sy p) (level p r) (ey p r) ltac:(lia) Y L E2) as SY.
  pose proof (prc_spec u (t_x0 T) (sx p) (level p r) (ex p r) ltac:(lia) ltac:(lia) X L E1) as RX.
  pose proof (prc_spec w (t_y0 T) (sy p) (level p r) (ey p r) ltac:(lia) ltac:(lia) Y L E2) as RY.
  rewrite RX, RY.
  set (DX := sx p * 2 ^ level p r) in *. set (DY := sy p * 2 ^ level p r) in *.
  set (QX := 2 ^ ex p r) in *. set (QY := 2 ^ ey p r) in *.
  set (WX := spans (t_x0 T) (t_x1 T) DX QX) in *. set (WY := spans (t_y0 T) (t_y1 T) DY QY) in *.
  pose proof (cdiv_mono (t_x0 T) (t_x1 T) DX ltac:(lia) ltac:(lia)) as MX.
  pose proof (cdiv_mono (t_y0 T) (t_y1 T) DY ltac:(lia) ltac:(lia)) as MY.
  split.
  - destruct (starts w _ _ _ _ _); cbn [negb]; [| discriminate].
    destruct (starts u _ _ _ _ _); cbn [negb]; [| discriminate].
    destruct ((WX =? 0) || (WY =? 0)) eqn:Z1; [discriminate |].
    destruct ((cdiv (t_x0 T) DX =? cdiv (t_x1 T) DX) || (cdiv (t_y0 T) DY =? cdiv (t_y1 T) DY)) eqn:Z2; [discriminate |]. apply orb_false_iff in Z2. rewrite !Z.eqb_neq in Z2.
    pose proof (axis_hit (t_x0 T) (t_x1 T) DX QX u ltac:(lia) ltac:(lia) Hu ltac:(lia) (proj1 SX eq_refl)) as [I1 I2].
    pose proof (axis_hit (t_y0 T) (t_y1 T) DY QY w ltac:(lia) ltac:(lia) Hw ltac:(lia) (proj1 SY eq_refl)) as [J1 J2].
    cbv zeta in *. fold WX in I1. fold WY in J1.
    set (i := cdiv u DX / QX - cdiv (t_x0 T) DX / QX) in *. set (j := cdiv w DY / QY - cdiv (t_y0 T) DY / QY) in *.
    clearbody i j WX WY. clear - I1 I2 J1 J2 AB NW NH. intros E.
    assert (B : 0 <= i + j * WX < WX * WY) by nia.
    assert (j * WX < 2 ^ 32) by lia. assert (0 <= j * WX) by (apply Z.mul_nonneg_nonneg; lia).
    rewrite (u32_id (j * WX)) in E by lia. rewrite u32_id in E by lia.
    assert (K : k = i + j * WX) by congruence. subst k. split; [exact B |].
    rewrite Z.mod_add, Z.mod_small by lia. rewrite Z.div_add, Z.div_small by lia. rewrite Z.add_0_l. split; assumption.
  - intros (Hk & Eu & Ew).
    assert (NX : 0 < WX) by (destruct (Z.eq_dec WX 0) as [e | e]; [rewrite e in Hk; lia | lia]).
    pose proof (Z.mod_pos_bound k WX NX) as BI.
    assert (BJ : 0 <= k / WX < WY) by (split; [apply Z.div_pos; lia | apply Z.div_lt_upper_bound; lia]).
    pose proof (axis_back (t_x0 T) (t_x1 T) DX QX (k mod WX) ltac:(lia) ltac:(lia) BI) as (_ & I2 & I3 & I4).
    pose proof (axis_back (t_y0 T) (t_y1 T) DY QY (k / WX) ltac:(lia) ltac:(lia) BJ) as (_ & J2 & J3 & J4).
    cbv zeta in *. rewrite Eu in I3, I4. rewrite Ew in J3, J4.
    rewrite (proj2 SX I3), (proj2 SY J3). cbn [negb].
    rewrite !(proj2 (Z.eqb_neq _ _)) by lia. cbn [orb]. rewrite I4, J4.
    pose proof (Z.div_mod k WX ltac:(lia)) as E.
    assert (0 <= k / WX * WX) by (apply Z.mul_nonneg_nonneg; lia).
    rewrite (u32_id (k / WX * WX)) by (rewrite Z.mul_comm; lia). rewrite u32_id by (rewrite Z.mul_comm; lia).
    f_equal. rewrite (Z.mul_comm (k / WX)). lia.
Qed.

Lemma anchors_in_tile : forall T c r k, wf T -> resolution T c r -> 0 <= k < wide T c r * high T c r ->
  t_x0 T <= px T c r k < t_x1 T /\ t_y0 T <= py T c r k < t_y1 T /\
  (px T c r k = t_x0 T \/ (gap_x T c r | px T c r k)) /\ (py T c r k = t_y0 T \/ (gap_y T c r | py T c r k)).
Proof.
  intros T c r k HW HR Hk. pose proof (exp_bounds T c r HW HR) as (E1 & E2 & L & X & Y).
  pose proof (wide_nonneg T c r HW HR) as [NW NH].
  unfold px, py, wide, high, gap_x, gap_y in *. cbv zeta in *. set (p := par T c) in *.
  pose proof (grid_bounds _ _ X L) as GX. pose proof (grid_bounds _ _ Y L) as GY.
  pose proof (pow_bounds _ _ E1) as PX. pose proof (pow_bounds _ _ E2) as PY.
  set (WX := spans (t_x0 T) (t_x1 T) _ _) in *. set (WY := spans (t_y0 T) (t_y1 T) _ _) in *.
  assert (NX : 0 < WX) by (destruct (Z.eq_dec WX 0) as [e | e]; [rewrite e in Hk; lia | lia]).
  pose proof (Z.mod_pos_bound k WX NX) as BI.
  assert (BJ : 0 <= k / WX < WY) by (split; [apply Z.div_pos; lia | apply Z.div_lt_upper_bound; lia]).
  pose proof (axis_back (t_x0 T) (t_x1 T) (sx p * 2 ^ level p r) (2 ^ ex p r) (k mod WX) ltac:(lia) ltac:(lia) BI) as (I1 & I2 & I3 & I4).
  pose proof (axis_back (t_y0 T) (t_y1 T) (sy p * 2 ^ level p r) (2 ^ ey p r) (k / WX) ltac:(lia) ltac:(lia) BJ) as (J1 & J2 & J3 & J4).
  cbv zeta in *.
  assert (EX : sx p * 2 ^ level p r * 2 ^ ex p r = sx p * 2 ^ (ex p r + level p r)) by (rewrite Z.pow_add_r by lia; ring).
  assert (EY : sy p * 2 ^ level p r * 2 ^ ey p r = sy p * 2 ^ (ey p r + level p r)) by (rewrite Z.pow_add_r by lia; ring).
  unfold edge in I3, J3. rewrite EX in I3. rewrite EY in J3.
  assert (PGX : 0 < sx p * 2 ^ (ex p r + level p r)) by (rewrite <- EX; apply Z.mul_pos_pos; lia).
  assert (PGY : 0 < sy p * 2 ^ (ey p r + level p r)) by (rewrite <- EY; apply Z.mul_pos_pos; lia).
  split; [exact I1 |]. split; [exact J1 |]. split.
  - destruct I3 as [I3 | [I3 _]]; [right; apply Z.mod_divide; [lia | exact I3] | left; exact I3].
  - destruct J3 as [J3 | [J3 _]]; [right; apply Z.mod_divide; [lia | exact J3] | left; exact J3].
Qed.

(** ** Steps *)

Lemma step_min_spec : forall d n m e r, 1 <= d <= 255 -> 0 <= e <= 15 -> 0 <= n - 1 - r -> n <= 33 -> 0 <= r ->
  step_min d n m e r =
  if d * 2 ^ (e + (n - 1 - r)) <? 2 ^ 32 then
    (if m =? 0 then d * 2 ^ (e + (n - 1 - r)) else Z.min m (d * 2 ^ (e + (n - 1 - r)))) else m.
Proof.
  intros d n m e r Hd He Hl Hn Hr. unfold step_min.
  rewrite (u32_id (e + n)) by lia. rewrite (u32_id (e + n - 1)) by lia. rewrite (u32_id (e + n - 1 - r)) by lia.
  replace (e + n - 1 - r) with (e + (n - 1 - r)) by ring. set (k := e + (n - 1 - r)) in *.
  destruct (Z.ltb_spec k 32) as [K | K]; cbn [andb].
  - pose proof (pow_bounds k 31 ltac:(lia)) as B.
    destruct (Z.leb_spec d ((2 ^ 32 - 1) / 2 ^ k)) as [H | H].
    + assert (2 ^ k * d <= 2 ^ 32 - 1).
      { pose proof (Z.mul_div_le (2 ^ 32 - 1) (2 ^ k) ltac:(lia)).
        assert (2 ^ k * d <= 2 ^ k * ((2 ^ 32 - 1) / 2 ^ k)) by (apply Z.mul_le_mono_nonneg_l; lia). lia. }
      rewrite (Z.mul_comm d). rewrite (proj2 (Z.ltb_lt _ _)) by lia. rewrite u32_id by lia. reflexivity.
    + rewrite (proj2 (Z.ltb_ge _ _)); [reflexivity |].
      apply Z.lt_le_pred in H. destruct (Z.lt_ge_cases (d * 2 ^ k) (2 ^ 32)) as [G | G]; [| exact G].
      assert (d <= (2 ^ 32 - 1) / 2 ^ k) by (apply Z.div_le_lower_bound; lia). lia.
  - rewrite (proj2 (Z.ltb_ge _ _)); [reflexivity |].
    pose proof (Z.pow_le_mono_r 2 32 k ltac:(lia) ltac:(lia)). nia.
Qed.

(** Minimum of the distances, where 0 stands for none so far. *)
Definition is_min (S : Z -> Prop) (m : Z) : Prop :=
  (m = 0 /\ forall s, S s -> 2 ^ 32 <= s) \/ (S m /\ 0 < m < 2 ^ 32 /\ forall s, S s -> s < 2 ^ 32 -> m <= s).

Lemma is_min_ext : forall (A B : Z -> Prop) m, (forall s, A s <-> B s) -> is_min A m -> is_min B m.
Proof.
  intros A B m H [[-> G] | (G1 & G2 & G3)]; [left | right].
  - split; [reflexivity |]. intros s Hs. apply G, H, Hs.
  - split; [apply H, G1 |]. split; [exact G2 |]. intros s Hs. apply G3, H, Hs.
Qed.

Lemma is_min_add : forall S m v, 0 < v -> is_min S m ->
  is_min (fun s => S s \/ s = v) (if v <? 2 ^ 32 then (if m =? 0 then v else Z.min m v) else m).
Proof.
  intros S m v Hv H. destruct (Z.ltb_spec v (2 ^ 32)) as [L | L].
  - destruct H as [[-> G] | (G1 & G2 & G3)].
    + right. cbn [Z.eqb]. split; [right; reflexivity |]. split; [lia |]. intros s [Hs | ->] Hl; [specialize (G s Hs); lia | lia].
    + rewrite (proj2 (Z.eqb_neq _ _)) by lia. right. split; [destruct (Z.min_spec m v) as [[_ ->] | [_ ->]]; tauto |].
      split; [lia |]. intros s [Hs | ->] Hl; [specialize (G3 s Hs Hl); lia | lia].
  - destruct H as [[-> G] | (G1 & G2 & G3)]; [left | right].
    + split; [reflexivity |]. intros s [Hs | ->]; [apply G, Hs | exact L].
    + split; [left; exact G1 |]. split; [exact G2 |]. intros s [Hs | ->] Hl; [apply G3; assumption | lia].
Qed.

Lemma res_min_spec : forall d n (sel : res -> Z) l m r S, 1 <= d <= 255 -> Forall (fun q => 0 <= sel q <= 15) l ->
  r + Z.of_nat (length l) = n -> n <= 33 -> 0 <= r -> is_min S m ->
  is_min (fun s => S s \/ exists i, (i < length l)%nat /\
            s = d * 2 ^ (sel (nth i l (mkRes 0 0 0 0)) + (n - 1 - (r + Z.of_nat i)))) (res_min d n sel m r l).
Proof.
  intros d n sel. induction l as [| q l IH]; intros m r S Hd HF Hn Hb Hr HS; cbn [res_min length] in *.
  - eapply is_min_ext; [| exact HS]. intros s. split; [tauto |]. intros [H | (i & Hi & _)]; [exact H | lia].
  - inversion HF as [| q' l' Hq HF']; subst q' l'.
    rewrite step_min_spec by lia.
    eapply is_min_ext; [| apply (IH _ (r + 1) (fun s => S s \/ s = d * 2 ^ (sel q + (n - 1 - r)))); try assumption; try lia].
    + intros s. split.
      * intros [[H | ->] | (i & Hi & ->)]; [left; exact H | right | right].
        -- exists O. split; [lia |]. cbn [nth]. replace (r + Z.of_nat 0) with r by lia. reflexivity.
        -- exists (Datatypes.S i). split; [lia |]. cbn [nth].
           replace (r + Z.of_nat (Datatypes.S i)) with (r + 1 + Z.of_nat i) by lia. reflexivity.
      * intros [H | (i & Hi & ->)]; [left; left; exact H |]. destruct i.
        -- left. right. cbn [nth]. replace (r + Z.of_nat 0) with r by lia. reflexivity.
        -- right. exists i. split; [lia |]. cbn [nth].
           replace (r + Z.of_nat (Datatypes.S i)) with (r + 1 + Z.of_nat i) by lia. reflexivity.
    + apply is_min_add; [| exact HS]. pose proof (Z.pow_pos_nonneg 2 (sel q + (n - 1 - r))). nia.
Qed.

Lemma nth_make_ress : forall T c r, wf T -> resolution T c r ->
  nth (Z.to_nat r) (ress (make_comp (t_x0 T) (t_y0 T) (t_x1 T) (t_y1 T) (par T c))) (mkRes 0 0 0 0) =
  mkRes (ex (par T c) r) (ey (par T c) r) (wide T c r) (high T c r).
Proof. exact res_of_make. Qed.

Lemma comp_min : forall T c m S (which : bool), wf T -> 0 <= c < Z.of_nat (length (t_comps T)) -> is_min S m ->
  is_min (fun s => S s \/ exists r, 0 <= r < nres (par T c) /\ s = (if which then gap_x T c r else gap_y T c r))
    ((if which then comp_dx else comp_dy) m (make_comp (t_x0 T) (t_y0 T) (t_x1 T) (t_y1 T) (par T c))).
Proof.
  intros T c m S which HW Hc HS. destruct (par_wf T c HW Hc) as (X & Y & N & F).
  assert (FR : Forall (fun q => 0 <= pdx q <= 15 /\ 0 <= pdy q <= 15)
    (ress (make_comp (t_x0 T) (t_y0 T) (t_x1 T) (t_y1 T) (par T c)))).
  { apply Forall_forall. intros q Hq. apply (In_nth _ _ (mkRes 0 0 0 0)) in Hq. destruct Hq as (i & Hi & <-).
    cbn [make_comp ress] in Hi. rewrite make_ress_length in Hi.
    assert (HR : resolution T c (Z.of_nat i)) by (split; [exact Hc | unfold nres; lia]).
    pose proof (nth_make_ress T c (Z.of_nat i) HW HR) as E. rewrite Nat2Z.id in E. rewrite E. cbn [pdx pdy].
    destruct (exp_bounds T c (Z.of_nat i) HW HR) as (E1 & E2 & _). split; assumption. }
  assert (LEN : length (ress (make_comp (t_x0 T) (t_y0 T) (t_x1 T) (t_y1 T) (par T c))) = length (exps (par T c)))
    by (cbn [make_comp ress]; apply make_ress_length).
  destruct which.
  - unfold comp_dx. rewrite numres_make. cbn [make_comp dx].
    eapply is_min_ext; [| eapply (res_min_spec (sx (par T c)) (nres (par T c)) pdx _ m 0 S X)]; try assumption; try lia.
    2: { eapply Forall_impl; [| exact FR]. cbn. tauto. }
    2: { unfold nres. rewrite LEN. lia. }
    intros s. apply or_iff_compat_l. rewrite LEN. split.
    + intros (i & Hi & ->). exists (Z.of_nat i). assert (HR : resolution T c (Z.of_nat i)) by (split; [exact Hc | unfold nres; lia]).
      split; [apply HR |]. pose proof (nth_make_ress T c (Z.of_nat i) HW HR) as E. rewrite Nat2Z.id in E. rewrite E. reflexivity.
    + intros (r & Hr & ->). exists (Z.to_nat r). split; [unfold nres in Hr; lia |].
      rewrite (nth_make_ress T c r HW (conj Hc Hr)). cbn [pdx]. rewrite Z2Nat.id by lia. reflexivity.
  - unfold comp_dy. rewrite numres_make. cbn [make_comp dy].
    eapply is_min_ext; [| eapply (res_min_spec (sy (par T c)) (nres (par T c)) pdy _ m 0 S Y)]; try assumption; try lia.
    2: { eapply Forall_impl; [| exact FR]. cbn. tauto. }
    2: { unfold nres. rewrite LEN. lia. }
    intros s. apply or_iff_compat_l. rewrite LEN. split.
    + intros (i & Hi & ->). exists (Z.of_nat i). assert (HR : resolution T c (Z.of_nat i)) by (split; [exact Hc | unfold nres; lia]).
      split; [apply HR |]. pose proof (nth_make_ress T c (Z.of_nat i) HW HR) as E. rewrite Nat2Z.id in E. rewrite E. reflexivity.
    + intros (r & Hr & ->). exists (Z.to_nat r). split; [unfold nres in Hr; lia |].
      rewrite (nth_make_ress T c r HW (conj Hc Hr)). cbn [pdy]. rewrite Z2Nat.id by lia. reflexivity.
Qed.

Lemma is_min_none : is_min (fun _ => False) 0.
Proof. left. split; [reflexivity | intros s []]. Qed.

Lemma firstn_snoc : forall {A} (l : list A) k d, (k < length l)%nat -> firstn (S k) l = firstn k l ++ [nth k l d].
Proof.
  induction l as [| a l IH]; intros k d H; cbn [length] in H; [lia |]. destruct k; [reflexivity |].
  change (firstn (S (S k)) (a :: l)) with (a :: firstn (S k) l). rewrite (IH k d) by lia. reflexivity.
Qed.

Lemma all_min : forall T v g (which : bool), wf T -> suits T v g ->
  is_min (fun s => exists c r, resolution T c r /\ s = (if which then gap_x T c r else gap_y T c r))
    (if which then all_dx g else all_dy g).
Proof.
  intros T v g which HW HS.
  assert (LEN : length (comps g) = length (t_comps T)) by (rewrite (su_comps _ _ _ HS), map_length; reflexivity).
  assert (G : forall k, (k <= length (t_comps T))%nat ->
    is_min (fun s => exists c r, resolution T c r /\ c < Z.of_nat k /\ s = (if which then gap_x T c r else gap_y T c r))
      (fold_left (if which then comp_dx else comp_dy) (firstn k (comps g)) 0)).
  { induction k; intros Hk.
    - cbn [firstn fold_left]. eapply is_min_ext; [| apply is_min_none]. intros s. split; [intros [] |].
      intros (c & r & [[Hc _] _] & Hk' & _). lia.
    - rewrite (firstn_snoc (comps g) k (mkComp 1 1 [])) by lia. rewrite fold_left_app. cbn [fold_left].
      assert (E : nth k (comps g) (mkComp 1 1 []) = make_comp (t_x0 T) (t_y0 T) (t_x1 T) (t_y1 T) (par T (Z.of_nat k))).
      { rewrite <- (comp_at_spec T v g (Z.of_nat k) HS) by lia. unfold comp_at. rewrite Nat2Z.id. reflexivity. }
      rewrite E. eapply is_min_ext; [| apply (comp_min T (Z.of_nat k) _ _ which HW ltac:(lia) (IHk ltac:(lia)))].
      intros s. split.
      + intros [(c & r & HR & Hc & ->) | (r & Hr & ->)].
        * exists c, r. split; [exact HR |]. split; [lia | reflexivity].
        * exists (Z.of_nat k), r. split; [split; [lia | exact Hr] |]. split; [lia | reflexivity].
      + intros (c & r & HR & Hc & ->). destruct (Z.eq_dec c (Z.of_nat k)) as [-> | Ne].
        * right. exists r. split; [apply HR | reflexivity].
        * left. exists c, r. split; [exact HR |]. split; [lia | reflexivity]. }
  specialize (G _ (le_n _)). rewrite <- LEN, firstn_all, LEN in G.
  replace (if which then all_dx g else all_dy g) with (fold_left (if which then comp_dx else comp_dy) (comps g) 0)
    by (destruct which; reflexivity).
  eapply is_min_ext; [| exact G]. intros s. split.
  - intros (c & r & HR & _ & ->). eauto.
  - intros (c & r & HR & ->). exists c, r. split; [exact HR |]. split; [apply HR | reflexivity].
Qed.

Lemma gap_pos : forall T c r, wf T -> resolution T c r -> 0 < gap_x T c r /\ 0 < gap_y T c r.
Proof.
  intros T c r HW HR. pose proof (exp_bounds T c r HW HR) as (E1 & E2 & L & X & Y). unfold gap_x, gap_y. cbv zeta.
  split; apply Z.mul_pos_pos; try lia; apply Z.pow_pos_nonneg; lia.
Qed.

Lemma all_step : forall T v g (which : bool), wf T -> suits T v g -> regular T (if which then gap_x else gap_y) ->
  let d := if which then all_dx g else all_dy g in
  0 < d < 2 ^ 32 /\ forall c r, resolution T c r -> (d | (if which then gap_x T c r else gap_y T c r)).
Proof.
  intros T v g which HW HS (c0 & r0 & HR0 & HL & HD). cbv zeta.
  pose proof (all_min T v g which HW HS) as M. set (d := if which then all_dx g else all_dy g) in *.
  assert (E : forall c r, (if which then gap_x T c r else gap_y T c r) = (if which then gap_x else gap_y) T c r) by (intros; destruct which; reflexivity).
  assert (P0 : 0 < (if which then gap_x else gap_y) T c0 r0) by (rewrite <- E; destruct which; apply (gap_pos T c0 r0 HW HR0)).
  assert (Ed : d = (if which then gap_x else gap_y) T c0 r0).
  { destruct M as [[_ M] | (M1 & M2 & M3)].
    - exfalso. specialize (M ((if which then gap_x else gap_y) T c0 r0)). apply Z.lt_nge in HL. apply HL, M.
      exists c0, r0. split; [exact HR0 | symmetry; apply E].
    - apply Z.le_antisymm.
      + apply M3; [exists c0, r0; split; [exact HR0 | symmetry; apply E] | exact HL].
      + destruct M1 as (c1 & r1 & HR1 & E1). rewrite E in E1. apply Z.divide_pos_le; [lia |].
        rewrite E1. apply HD. exact HR1. }
  split; [rewrite Ed; split; assumption |]. intros c r HR. rewrite E, Ed. apply HD. exact HR.
Qed.

Lemma pow_scale_le : forall d a b, 0 < d -> 0 <= a -> 0 <= b -> d * 2 ^ a <= d * 2 ^ b -> (d * 2 ^ a | d * 2 ^ b).
Proof.
  intros d a b Hd Ha Hb H. apply Z.mul_le_mono_pos_l in H; [| exact Hd].
  assert (a <= b) by (apply (Z.pow_le_mono_r_iff 2); lia).
  exists (2 ^ (b - a)). replace b with ((b - a) + a) at 1 by ring. rewrite Z.pow_add_r by lia. ring.
Qed.

Lemma comp_step : forall T v g c (which : bool), wf T -> suits T v g -> narrow T -> 0 <= c < Z.of_nat (length (t_comps T)) ->
  let d := (if which then comp_dx else comp_dy) 0 (comp_at g c) in
  0 < d < 2 ^ 32 /\ forall r, 0 <= r < nres (par T c) -> (d | (if which then gap_x T c r else gap_y T c r)).
Proof.
  intros T v g c which HW HS HN Hc. cbv zeta. rewrite (comp_at_spec T v g c HS Hc).
  pose proof (comp_min T c 0 _ which HW Hc is_min_none) as M.
  destruct (par_wf T c HW Hc) as (X & Y & N & F).
  set (d := (if which then comp_dx else comp_dy) 0 _) in *.
  assert (HL : forall r, 0 <= r < nres (par T c) -> (if which then gap_x T c r else gap_y T c r) < 2 ^ 32)
    by (intros r Hr; destruct (HN c r (conj Hc Hr)); destruct which; assumption).
  destruct M as [[_ M] | (M1 & M2 & M3)].
  - exfalso. assert (H0 : 0 <= 0 < nres (par T c)) by lia. specialize (HL 0 H0). apply Z.lt_nge in HL. apply HL, M.
    right. exists 0. split; [exact H0 | reflexivity].
  - split; [exact M2 |]. intros r Hr. destruct M1 as [[] | (r1 & Hr1 & E1)].
    assert (LE : d <= (if which then gap_x T c r else gap_y T c r)).
    { apply M3; [right; exists r; split; [exact Hr | reflexivity] | apply HL; exact Hr]. }
    rewrite E1 in *. pose proof (exp_bounds T c r HW (conj Hc Hr)) as (A1 & A2 & A3 & _).
    pose proof (exp_bounds T c r1 HW (conj Hc Hr1)) as (B1 & B2 & B3 & _).
    destruct which; unfold gap_x, gap_y in *; cbv zeta in *; apply pow_scale_le; lia.
Qed.

(** ** Overflow checks *)

Lemma fits64_true : forall T v g c r, wf T -> suits T v g -> resolution T c r -> fits64 (comp_at g c) r = true.
Proof.
  intros T v g c r HW HS HR. pose proof (exp_bounds T c r HW HR) as (E1 & E2 & L & X & Y).
  rewrite (comp_at_spec T v g c HS) by apply HR. unfold fits64. rewrite (res_of_make T c r HW HR), numres_make.
  cbv zeta. fold (level (par T c) r). cbn [make_comp dx dy pdx pdy].
  assert (C : forall d k, 1 <= d <= 255 -> 0 <= k <= 47 -> check64 d (u32 k) = true /\ check64 d k = true).
  { intros d k Hd Hk. rewrite u32_id by lia. unfold check64. pose proof (pow_bounds k 47 Hk).
    rewrite shl64_small, shr64_small by (change (2 ^ 47) with 140737488355328 in *; nia).
    rewrite Z.div_mul by lia. rewrite Z.eqb_refl. split; reflexivity. }
  destruct (C (sx (par T c)) (level (par T c) r) X ltac:(lia)) as [_ ->].
  destruct (C (sy (par T c)) (level (par T c) r) Y ltac:(lia)) as [_ ->].
  destruct (C (sx (par T c)) (ex (par T c) r + level (par T c) r) X ltac:(lia)) as [-> _].
  destruct (C (sy (par T c)) (ey (par T c) r + level (par T c) r) Y ltac:(lia)) as [-> _]. reflexivity.
Qed.

Lemma fits32_true : forall T v g c r, wf T -> suits T v g -> resolution T c r -> narrow T -> fits32 (comp_at g c) r = true.
Proof.
  intros T v g c r HW HS HR HN. pose proof (exp_bounds T c r HW HR) as (E1 & E2 & L & X & Y).
  destruct (HN c r HR) as [GX GY]. unfold gap_x, gap_y in GX, GY. cbv zeta in GX, GY.
  rewrite (comp_at_spec T v g c HS) by apply HR. unfold fits32. rewrite (res_of_make T c r HW HR), numres_make.
  cbv zeta. fold (level (par T c) r). cbn [make_comp dx dy pdx pdy].
  assert (K : forall d k, 1 <= d <= 255 -> 0 <= k -> d * 2 ^ k < 2 ^ 32 -> k < 32).
  { intros d k Hd Hk H. destruct (Z.lt_ge_cases k 32) as [G | G]; [exact G |].
    pose proof (Z.pow_le_mono_r 2 32 k ltac:(lia) ltac:(lia)). nia. }
  assert (C : forall d e k, 1 <= d <= 255 -> 0 <= e -> 0 <= k -> d * 2 ^ (e + k) < 2 ^ 32 ->
    check32a d k = true /\ check32b d (u32 (e + k)) = true).
  { intros d e k Hd He Hk H. pose proof (K d (e + k) Hd ltac:(lia) H) as B. rewrite u32_id by lia.
    pose proof (Z.pow_le_mono_r 2 k (e + k) ltac:(lia) ltac:(lia)) as Mo. pose proof (Z.pow_pos_nonneg 2 k ltac:(lia) ltac:(lia)) as Po.
    assert (H' : d * 2 ^ k < 2 ^ 32) by nia. assert (0 < 2 ^ (e + k)) by lia. unfold check32a, check32b.
    rewrite (shl32_small d k) by (split; nia || lia). rewrite (shl32_small d (e + k)) by (split; nia || lia).
    rewrite shr32_small, shr64_small by lia. rewrite !Z.div_mul by lia. rewrite u32_id by lia.
    rewrite Z.eqb_refl. split; reflexivity. }
  destruct (C (sx (par T c)) (ex (par T c) r) (level (par T c) r) X ltac:(lia) ltac:(lia) GX) as [-> ->].
  destruct (C (sy (par T c)) (ey (par T c) r) (level (par T c) r) Y ltac:(lia) ltac:(lia) GY) as [-> ->]. reflexivity.
Qed.
