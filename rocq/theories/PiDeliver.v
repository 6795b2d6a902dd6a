(** Setting up the iterators, and draining them one after the other. *)

From Coq Require Import ZArith List Bool Lia Sorted.
From Verif Require Import Ints Mem PiModel PiRun PiLoops PiSpec PiMath PiProofs PiVisits.
Import ListNotations.
Local Open Scope Z_scope.

(** ** The table of packets *)

Lemma fold_max_ge : forall {A} (f : A -> Z) l m, m <= fold_left (fun m a => Z.max m (f a)) l m /\
  (forall a, In a l -> f a <= fold_left (fun m a => Z.max m (f a)) l m).
Proof.
  intros A f. induction l as [| a l IH]; intros m; cbn [fold_left]; [split; [lia | intros a []] |].
  destruct (IH (Z.max m (f a))) as [H1 H2]. split; [lia |]. intros b [-> | Hb]; [lia | apply H2; exact Hb].
Qed.

Lemma fold_max_le : forall {A} (f : A -> Z) l m B, m <= B -> (forall a, In a l -> f a <= B) ->
  fold_left (fun m a => Z.max m (f a)) l m <= B.
Proof.
  intros A f. induction l as [| a l IH]; intros m B Hm H; cbn [fold_left]; [exact Hm |].
  apply IH; [specialize (H a (or_introl eq_refl)); lia | intros; apply H; right; assumption].
Qed.

Lemma max_prec_ge : forall cs m,
  let F := fold_left (fun m c => fold_left (fun m q => Z.max m (u32 (pw q * ph q))) (ress c) m) cs m in
  m <= F /\ (forall c q, In c cs -> In q (ress c) -> u32 (pw q * ph q) <= F).
Proof.
  induction cs as [| c cs IH]; intros m; cbv zeta; cbn [fold_left]; [split; [lia | intros c q []] |].
  destruct (fold_max_ge (fun q => u32 (pw q * ph q)) (ress c) m) as [A1 A2].
  destruct (IH (fold_left (fun m q => Z.max m (u32 (pw q * ph q))) (ress c) m)) as [H1 H2].
  split; [lia |]. intros c' q [-> | Hc] Hq; [specialize (A2 q Hq); lia | apply (H2 c'); assumption].
Qed.

Lemma max_prec_le : forall cs m B, m <= B -> (forall c q, In c cs -> In q (ress c) -> u32 (pw q * ph q) <= B) ->
  fold_left (fun m c => fold_left (fun m q => Z.max m (u32 (pw q * ph q))) (ress c) m) cs m <= B.
Proof.
  induction cs as [| c cs IH]; intros m B Hm H; cbn [fold_left]; [exact Hm |]. apply IH.
  - apply fold_max_le; [exact Hm |]. intros q Hq. apply (H c q); [left; reflexivity | exact Hq].
  - intros c' q Hc. apply H. right. exact Hc.
Qed.

Definition model_comps (T : tile) : list comp := map (make_comp (t_x0 T) (t_y0 T) (t_x1 T) (t_y1 T)) (t_comps T).

Lemma in_model_comps : forall T k, In k (model_comps T) ->
  exists c, 0 <= c < Z.of_nat (length (t_comps T)) /\ k = make_comp (t_x0 T) (t_y0 T) (t_x1 T) (t_y1 T) (par T c).
Proof.
  intros T k H. unfold model_comps in H. apply in_map_iff in H. destruct H as (p & <- & Hp).
  apply (In_nth _ _ (mkParams 1 1 [])) in Hp. destruct Hp as (i & Hi & <-). exists (Z.of_nat i).
  split; [lia |]. unfold par. rewrite Nat2Z.id. reflexivity.
Qed.

Lemma model_comps_in : forall T c, 0 <= c < Z.of_nat (length (t_comps T)) ->
  In (make_comp (t_x0 T) (t_y0 T) (t_x1 T) (t_y1 T) (par T c)) (model_comps T).
Proof. intros T c Hc. unfold model_comps. apply in_map. unfold par. apply nth_In. lia. Qed.

Lemma ress_area : forall T c q, wf T -> 0 <= c < Z.of_nat (length (t_comps T)) ->
  In q (ress (make_comp (t_x0 T) (t_y0 T) (t_x1 T) (t_y1 T) (par T c))) ->
  exists r, resolution T c r /\ u32 (pw q * ph q) = wide T c r * high T c r.
Proof.
  intros T c q HW Hc H. apply (In_nth _ _ (mkRes 0 0 0 0)) in H. destruct H as (i & Hi & <-).
  cbn [make_comp ress] in Hi. rewrite make_ress_length in Hi.
  assert (HR : resolution T c (Z.of_nat i)) by (split; [exact Hc | unfold nres; lia]).
  exists (Z.of_nat i). split; [exact HR |].
  pose proof (nth_make_ress T c (Z.of_nat i) HW HR) as E. rewrite Nat2Z.id in E. rewrite E. cbn [pw ph].
  apply u32_id. apply area_bounds; assumption.
Qed.

Lemma table : forall T, wf T -> let cs := model_comps T in let C := Z.of_nat (length (t_comps T)) in
  0 <= max_prec cs /\ 1 <= max_res cs /\
  (forall c r, resolution T c r -> wide T c r * high T c r <= max_prec cs) /\
  (forall c, 0 <= c < C -> nres (par T c) <= max_res cs) /\
  (t_layers T + 1) * (max_res cs * (C * max_prec cs)) < 2 ^ 32.
Proof.
  intros T HW. cbv zeta. pose proof HW as (_ & _ & _ & _ & HL & HC & _ & R & M & H1 & H2 & H3).
  unfold max_prec, max_res.
  destruct (max_prec_ge (model_comps T) 0) as [A1 A2]. cbv zeta in A1, A2.
  destruct (fold_max_ge numres (model_comps T) 0) as [B1 B2].
  assert (G1 : forall c r, resolution T c r -> wide T c r * high T c r <=
    fold_left (fun m c => fold_left (fun m q => Z.max m (u32 (pw q * ph q))) (ress c) m) (model_comps T) 0).
  { intros c r HR. rewrite <- (u32_id (wide T c r * high T c r)) by (apply area_bounds; assumption).
    apply (A2 _ (mkRes (ex (par T c) r) (ey (par T c) r) (wide T c r) (high T c r)) (model_comps_in T c (proj1 HR))).
    rewrite <- (nth_make_ress T c r HW HR). apply nth_In. cbn [make_comp ress]. rewrite make_ress_length.
    destruct HR as [_ HR]. unfold nres in HR. lia. }
  assert (G2 : forall c, 0 <= c < Z.of_nat (length (t_comps T)) -> nres (par T c) <= fold_left (fun m c => Z.max m (numres c)) (model_comps T) 0).
  { intros c Hc. rewrite <- (numres_make (t_x0 T) (t_y0 T) (t_x1 T) (t_y1 T)). apply B2. apply model_comps_in. exact Hc. }
  destruct (par_wf T 0 HW ltac:(lia)) as (_ & _ & N0 & _).
  assert (R0 : resolution T 0 0) by (split; lia).
  pose proof (area_bounds T 0 0 HW R0) as AB. pose proof (H2 0 0 R0) as M0. pose proof (H1 0 ltac:(lia)) as RR.
  assert (LM : fold_left (fun m c => fold_left (fun m q => Z.max m (u32 (pw q * ph q))) (ress c) m) (model_comps T) 0 <= M).
  { apply max_prec_le; [lia |]. intros k q Hk Hq. apply in_model_comps in Hk. destruct Hk as (c & Hc & ->).
    destruct (ress_area T c q HW Hc Hq) as (r & HR & ->). apply H2. exact HR. }
  assert (LR : fold_left (fun m c => Z.max m (numres c)) (model_comps T) 0 <= R).
  { apply fold_max_le; [lia |]. intros k Hk. apply in_model_comps in Hk. destruct Hk as (c & Hc & ->). rewrite numres_make. apply H1. exact Hc. }
  specialize (G2 0 ltac:(lia)) as G20.
  split; [exact A1 |]. split; [lia |]. split; [exact G1 |]. split; [exact G2 |].
  set (mp := fold_left _ (model_comps T) 0) in *. set (mr := fold_left _ (model_comps T) 0) in *.
  clearbody mp mr. clear - A1 N0 G20 LM LR HL HC AB M0 RR H3. set (C := Z.of_nat (length (t_comps T))) in *. clearbody C.
  eapply Z.le_lt_trans; [| exact H3]. apply Z.mul_le_mono_nonneg_l; [lia |].
  apply Z.mul_le_mono_nonneg; [lia | exact LR | apply Z.mul_nonneg_nonneg; lia |]. apply Z.mul_le_mono_nonneg_l; lia.
Qed.

(** Mixed radix numbers. *)
Lemma radix : forall a b n x y, 0 <= x < n -> 0 <= y < n -> a * n + x = b * n + y -> a = b /\ x = y.
Proof.
  intros a b n u w Hu Hw E. assert (A : a = b); [| subst; lia].
  assert (Ha : (a * n + u) / n = a) by (rewrite Z.add_comm, Z.div_add, Z.div_small by lia; reflexivity).
  assert (Hb : (b * n + w) / n = b) by (rewrite Z.add_comm, Z.div_add, Z.div_small by lia; reflexivity).
  rewrite <- Ha, <- Hb, E. reflexivity.
Qed.

Definition number (T : tile) (q : packet) : Z :=
  let '(l, r, c, k) := q in
  ((l * max_res (model_comps T) + r) * Z.of_nat (length (t_comps T)) + c) * max_prec (model_comps T) + k.

Lemma number_inj : forall T q q', wf T -> valid T q -> valid T q' -> number T q = number T q' -> q = q'.
Proof.
  intros T [[[l r] c] k] [[[l' r'] c'] k'] HW (V1 & V2 & V3 & V4) (W1 & W2 & W3 & W4) E. unfold number in E.
  destruct (table T HW) as (A0 & A1 & A2 & A3 & A4). cbv zeta in *.
  pose proof (A2 c r (conj V2 V3)) as K1. pose proof (A2 c' r' (conj W2 W3)) as K2.
  pose proof (A3 c V2) as R1. pose proof (A3 c' W2) as R2.
  apply radix in E; [| lia | lia]. destruct E as [E ->]. apply radix in E; [| lia | lia]. destruct E as [E ->].
  apply radix in E; [| lia | lia]. destruct E as [-> ->]. reflexivity.
Qed.

Lemma number_bound : forall T q, wf T -> valid T q ->
  0 <= number T q < t_layers T * (max_res (model_comps T) * (Z.of_nat (length (t_comps T)) * max_prec (model_comps T))).
Proof.
  intros T [[[l r] c] k] HW (V1 & V2 & V3 & V4). unfold number.
  destruct (table T HW) as (A0 & A1 & A2 & A3 & A4). cbv zeta in *.
  pose proof (A2 c r (conj V2 V3)) as K1. pose proof (A3 c V2) as R1.
  set (mr := max_res (model_comps T)) in *. set (mp := max_prec (model_comps T)) in *. set (C := Z.of_nat (length (t_comps T))) in *.
  set (w := wide T c r * high T c r) in *. set (n := nres (par T c)) in *. clearbody mr mp C w n. clear A2 A3.
  assert (X1 : 0 <= l * mr + r) by nia. assert (X2 : l * mr + r + 1 <= t_layers T * mr) by nia.
  set (x := l * mr + r) in *. clearbody x.
  assert (Y1 : 0 <= x * C + c) by nia. assert (Y2 : x * C + c + 1 <= t_layers T * mr * C) by nia.
  set (y := x * C + c) in *. clearbody y. split; [nia |].
  replace (t_layers T * (mr * (C * mp))) with (t_layers T * mr * C * mp) by ring. nia.
Qed.

(** An iterator over a volume, with room for all packets of the tile. *)
Definition table_cfg (T : tile) (v : volume) (size : Z) : cfg :=
  let cs := model_comps T in
  mkCfg cs (t_x0 T) (t_y0 T) (t_x1 T) (t_y1 T)
    (max_res cs * (Z.of_nat (length (t_comps T)) * max_prec cs)) (Z.of_nat (length (t_comps T)) * max_prec cs) (max_prec cs) 1 size
    0 (v_lay1 v) (v_res0 v) (v_res1 v) (v_comp0 v) (v_comp1 v) 0.

Lemma table_index : forall T v size q, wf T -> valid T q -> index_of (table_cfg T v size) q = number T q.
Proof.
  intros T v size q HW HV. pose proof (number_bound T q HW HV) as NB.
  destruct (table T HW) as (A0 & A1 & A2 & A3 & A4). cbv zeta in *.
  destruct q as [[[l r] c] k]. destruct HV as (V1 & V2 & V3 & V4).
  cbn [index_of]. unfold index, number, table_cfg in *. cbn [step_l step_r step_c step_p].
  pose proof (A2 c r (conj V2 V3)) as K1.
  set (mr := max_res (model_comps T)) in *. set (mp := max_prec (model_comps T)) in *. set (C := Z.of_nat (length (t_comps T))) in *.
  set (L := t_layers T) in *. clearbody mr mp C L. clear A2 A3.
  assert (B0 : 0 <= mr * (C * mp)) by nia. assert (B1 : L * (mr * (C * mp)) < 2 ^ 32) by lia.
  assert (P1 : 0 <= l * (mr * (C * mp))) by nia. assert (P2 : 0 <= r * (C * mp)) by nia. assert (P3 : 0 <= c * mp) by nia.
  replace (((l * mr + r) * C + c) * mp + k) with (l * (mr * (C * mp)) + r * (C * mp) + c * mp + k) in * by ring.
  rewrite Z.mul_1_r.
  rewrite (u32_id (l * (mr * (C * mp)))) by lia. rewrite (u32_id (r * (C * mp))) by lia. rewrite (u32_id (c * mp)) by lia.
  rewrite (u32_id k) by lia. rewrite (u32_id (l * (mr * (C * mp)) + r * (C * mp))) by lia.
  rewrite (u32_id (l * (mr * (C * mp)) + r * (C * mp) + c * mp)) by lia. apply u32_id. lia.
Qed.

Lemma table_suits : forall T v size, wf T ->
  t_layers T * (max_res (model_comps T) * (Z.of_nat (length (t_comps T)) * max_prec (model_comps T))) <= size ->
  suits T v (table_cfg T v size).
Proof.
  intros T v size HW Hs. constructor; try reflexivity.
  - intros q HV. rewrite table_index by assumption. pose proof (number_bound T q HW HV). unfold table_cfg. cbn [include_size]. lia.
  - intros q q' HV HV' E. rewrite !table_index in E by assumption. apply (number_inj T); assumption.
Qed.

(** pi.rs:2060-2086: the decoder's table is one layer larger than needed. *)
Lemma make_cfg_table : forall T v, wf T -> exists size,
  make_cfg (t_x0 T) (t_y0 T) (t_x1 T) (t_y1 T) (t_layers T) (t_comps T) v = Some (table_cfg T v size) /\
  t_layers T * (max_res (model_comps T) * (Z.of_nat (length (t_comps T)) * max_prec (model_comps T))) <= size.
Proof.
  intros T v HW. destruct (table T HW) as (A0 & A1 & A2 & A3 & A4). cbv zeta in *. destruct HW as (_ & _ & _ & _ & HL & HC & _).
  unfold make_cfg. fold (model_comps T). unfold table_cfg.
  assert (LEN : length (model_comps T) = length (t_comps T)) by apply map_length. rewrite !LEN. clear LEN.
  clear A2 A3. set (mr := max_res (model_comps T)) in *. set (mp := max_prec (model_comps T)) in *.
  set (C := Z.of_nat (length (t_comps T))) in *. set (L := t_layers T) in *. clearbody mr mp C L.
  assert (X1 : mp <= C * mp) by nia. assert (X2 : C * mp <= mr * (C * mp)) by nia.
  assert (X3 : mr * (C * mp) <= (L + 1) * (mr * (C * mp))) by nia.
  rewrite Z.mul_1_r. rewrite (u32_id mp) by lia. rewrite (u32_id (C * mp)) by lia. rewrite (u32_id (mr * (C * mp))) by lia.
  rewrite (u32_id (L + 1)) by lia. rewrite (u32_id ((L + 1) * (mr * (C * mp)))) by lia.
  rewrite (proj2 (Z.leb_le _ _)) by (apply Z.div_le_lower_bound; lia).
  eexists. split; [reflexivity |]. lia.
Qed.

(** ** One iterator *)

Lemma drain_table : forall T v size m, wf T -> volume_ok T v -> v_lay1 v <= t_layers T -> order_ok T (v_order v) ->
  t_layers T * (max_res (model_comps T) * (Z.of_nat (length (t_comps T)) * max_prec (model_comps T))) <= size ->
  exists n0, forall n, (n0 <= n)%nat ->
    drain (table_cfg T v size) (v_order v) n n true (mkSt 0 0 0 0 0 0 m) =
    Some (sift (table_cfg T v size) m (visits (table_cfg T v size) (v_order v))).
Proof.
  intros T v size m HW HV HL HO Hs. pose proof (table_suits T v size HW Hs) as HS.
  set (g := table_cfg T v size) in *. pose proof HV as (V1 & V2 & V3 & V4).
  pose proof HW as (W1 & W2 & W3 & W4 & W5 & W6 & _).
  assert (HA : forall l r c k, lay0 g <= l < lay1 g -> res0 g <= r < res1 g -> comp0 g <= c < comp1 g ->
    resolution T c r -> 0 <= k < wide T c r * high T c r -> index g l r c k < include_size g).
  { intros l r c k Hl Hr Hc HR Hk. apply (su_index _ _ _ HS (l, r, c, k)). cbn [lay0 lay1 res0 res1 comp0 comp1 table_cfg g] in *.
    destruct HR as [HR1 HR2]. unfold valid. lia. }
  destruct (drain_visits g (v_order v) (mkSt 0 0 0 0 0 0 m)) as (n0 & f0 & H).
  - unfold bad_comps, numcomps. rewrite (su_comps _ _ _ HS), map_length.
    rewrite (su_comp0 _ _ _ HS), (su_comp1 _ _ _ HS). rewrite (proj2 (Z.leb_gt _ _)) by lia.
    rewrite u32_id by lia. rewrite (proj2 (Z.leb_gt _ _)) by lia. reflexivity.
  - unfold bounded. cbn [lay0 lay1 res0 res1 comp0 comp1 prec0 table_cfg g]. lia.
  - intros l r c p Hl Hr Hc Hn. cbv zeta. intros Hp.
    assert (Hc' : 0 <= c < Z.of_nat (length (t_comps T))) by (cbn [comp0 comp1 table_cfg g] in Hc; lia).
    rewrite (comp_at_spec T v g c HS Hc') in Hn, Hp. rewrite numres_make in Hn.
    assert (HR : resolution T c r) by (split; [exact Hc' | cbn [res0 res1 table_cfg g] in Hr; lia]).
    rewrite (res_of_make T c r HW HR) in Hp. cbn [pw ph prec0 table_cfg g] in Hp.
    rewrite u32_id in Hp by (apply area_bounds; assumption). apply HA; assumption.
  - intros l r c u w k Hl Hr Hc Hn Hu Hw Hk.
    assert (Hc' : 0 <= c < Z.of_nat (length (t_comps T))) by (cbn [comp0 comp1 table_cfg g] in Hc; lia).
    rewrite (comp_at_spec T v g c HS Hc') in Hn. rewrite numres_make in Hn.
    assert (HR : resolution T c r) by (split; [exact Hc' | cbn [res0 res1 table_cfg g] in Hr; lia]).
    apply (here_spec T v g c r u w k HW HS HR) in Hk; [| exact Hu | exact Hw]. apply HA; tauto.
  - unfold placed. cbn [tx0 tx1 ty0 ty1 table_cfg g]. lia.
  - destruct (v_order v); cbn [steps_ok order_ok] in *; try exact I.
    + destruct HO as [OX OY]. split; [apply (all_step T v g true HW HS OX) | apply (all_step T v g false HW HS OY)].
    + destruct HO as (OX & OY & _). split; [apply (all_step T v g true HW HS OX) | apply (all_step T v g false HW HS OY)].
    + intros c Hc. assert (Hc' : 0 <= c < Z.of_nat (length (t_comps T))) by (cbn [comp0 comp1 table_cfg g] in Hc; lia).
      split; [apply (comp_step T v g c true HW HS HO Hc') | apply (comp_step T v g c false HW HS HO Hc')].
  - exists (Nat.max n0 f0). intros n Hn. apply H; lia.
Qed.

(** ** One iterator after the other *)

Definition room (T : tile) (size : Z) : Prop :=
  t_layers T * (max_res (model_comps T) * (Z.of_nat (length (t_comps T)) * max_prec (model_comps T))) <= size.

Definition marked (T : tile) (done : list packet) (m : mem) : Prop :=
  forall q, valid T q -> m (number T q) = 0 <-> ~ In q done.

Definition good (T : tile) (v : volume) : Prop := volume_ok T v /\ v_lay1 v <= t_layers T /\ order_ok T (v_order v).

Lemma drain_part : forall T v size m done, wf T -> good T v -> room T size -> marked T done m ->
  exists part m' n0,
    (forall n, (n0 <= n)%nat -> drain (table_cfg T v size) (v_order v) n n true (mkSt 0 0 0 0 0 0 m) = Some (part, m')) /\
    ordered T (v_order v) part /\ (forall q, In q part <-> within T v q /\ ~ In q done) /\ marked T (done ++ part) m'.
Proof.
  intros T v size m done HW (HV & HL & HO) HR HM.
  destruct (drain_table T v size m HW HV HL HO HR) as (n0 & HD).
  pose proof (table_suits T v size HW HR) as HS.
  pose proof (fun q => visits_in T v _ _ q HW HS HV HL HO) as HI.
  pose proof (visits_sorted T v _ _ HW HS HV HL HO) as HSo.
  set (g := table_cfg T v size) in *. set (vs := visits g (v_order v)) in *.
  assert (VV : forall q, In q vs -> valid T q) by (intros q Hq; apply HI in Hq; exact (proj1 Hq)).
  destruct (sift_spec T v g vs m HS (ordered_NoDup _ _ _ HSo) (proj2 (Forall_forall _ _) VV)) as [S1 S2].
  assert (IN : forall q, In q (fst (sift g m vs)) <-> within T v q /\ ~ In q done).
  { intros q. rewrite S1, filter_In, HI, Z.eqb_eq. split; intros [A B]; (split; [exact A |]).
    - apply (HM q (proj1 A)). rewrite <- (table_index T v size q HW (proj1 A)). exact B.
    - unfold g. rewrite (table_index T v size q HW (proj1 A)). apply (HM q (proj1 A)). exact B. }
  exists (fst (sift g m vs)), (snd (sift g m vs)), n0.
  split; [intros n Hn; rewrite (HD n Hn); f_equal; apply surjective_pairing |].
  split; [rewrite S1; apply sorted_filter; exact HSo |]. split; [exact IN |].
  intros q Hq. specialize (S2 q Hq). unfold g in S2 at 2 3. rewrite (table_index T v size q HW Hq) in S2.
  rewrite S2, (HM q Hq), in_app_iff, IN. fold vs. split.
  - intros [A B] [C | [C _]]; [exact (A C) | apply B; apply HI; exact C].
  - intros H. split; [intros C; apply H; left; exact C |]. intros C.
    destruct (In_dec (fun a b : packet => ltac:(repeat decide equality) : {a = b} + {a <> b}) q done) as [D | D].
    + apply H. left. exact D.
    + apply H. right. split; [apply HI; exact C | exact D].
Qed.

Lemma drain_list : forall T, wf T -> forall vs sizes done m, Forall (good T) vs -> Forall2 (fun _ => room T) vs sizes -> marked T done m ->
  exists parts n0, sequence T done vs parts /\ forall n, (n0 <= n)%nat ->
    drain_all n n (map (fun vz => (table_cfg T (fst vz) (snd vz), v_order (fst vz))) (combine vs sizes)) m = Some (concat parts).
Proof.
  intros T HW. induction vs as [| v vs IH]; intros sizes done m HG HR HM.
  - inversion HR; subst. exists [], 0%nat. split; [constructor | reflexivity].
  - inversion HR; subst. inversion HG; subst. rename l' into sizes.
    destruct (drain_part T v y m done HW ltac:(assumption) ltac:(assumption) HM) as (part & m' & n1 & D & O & I & M').
    destruct (IH sizes (done ++ part) m' ltac:(assumption) ltac:(assumption) M') as (parts & n2 & S & D2).
    exists (part :: parts), (Nat.max n1 n2). split; [constructor; assumption |]. intros n Hn.
    cbn [combine map drain_all fst snd concat]. rewrite D by lia. rewrite D2 by lia. reflexivity.
Qed.

(** ** Decoder *)

Lemma iterators_table : forall T vs, wf T -> exists sizes, Forall2 (fun _ => room T) vs sizes /\
  iterators (t_x0 T) (t_y0 T) (t_x1 T) (t_y1 T) (t_layers T) (t_comps T) vs =
  Some (map (fun vz => (table_cfg T (fst vz) (snd vz), v_order (fst vz))) (combine vs sizes)).
Proof.
  intros T vs HW. induction vs as [| v vs (sizes & F & E)]; [exists []; split; [constructor | reflexivity] |].
  destruct (make_cfg_table T v HW) as (size & E1 & R). exists (size :: sizes). split; [constructor; assumption |].
  cbn [iterators combine map fst snd]. rewrite E1, E. reflexivity.
Qed.

(** ** Encoder *)

Lemma enc_cfg_table : forall T v, wf T -> exists size, room T size /\
  enc_cfg (t_x0 T) (t_y0 T) (t_x1 T) (t_y1 T) (t_layers T) (t_comps T) 0 v = table_cfg T v size.
Proof.
  intros T v HW. destruct (table T HW) as (A0 & A1 & A2 & A3 & A4). cbv zeta in *. destruct HW as (_ & _ & _ & _ & HL & HC & _).
  unfold enc_cfg, room. fold (model_comps T). unfold table_cfg.
  assert (LEN : length (model_comps T) = length (t_comps T)) by apply map_length. rewrite !LEN. clear LEN.
  clear A2 A3. set (mr := max_res (model_comps T)) in *. set (mp := max_prec (model_comps T)) in *.
  set (C := Z.of_nat (length (t_comps T))) in *. set (L := t_layers T) in *. clearbody mr mp C L.
  assert (X1 : mp <= C * mp) by nia. assert (X2 : C * mp <= mr * (C * mp)) by nia.
  assert (X3 : mr * (C * mp) <= (L + 1) * (mr * (C * mp))) by nia. assert (X4 : 0 <= L * (mr * (C * mp))) by nia.
  rewrite Z.mul_1_r. rewrite (u32_id mp) by lia. rewrite (u32_id (C * mp)) by lia. rewrite (u32_id (mr * (C * mp))) by lia.
  rewrite (u32_id (L * (mr * (C * mp)))) by lia.
  eexists. split; [| reflexivity]. lia.
Qed.

Lemma enc_iterators_table : forall T, wf T -> forall vs prev, layers_descend vs ->
  (forall e v, prev = Some e -> In v vs -> v_lay1 v <= e) ->
  exists sizes, Forall2 (fun _ => room T) vs sizes /\
  enc_iterators (t_x0 T) (t_y0 T) (t_x1 T) (t_y1 T) (t_layers T) (t_comps T) prev vs =
  map (fun vz => (table_cfg T (fst vz) (snd vz), v_order (fst vz))) (combine vs sizes).
Proof.
  intros T HW. induction vs as [| v vs IH]; intros prev HD HP; [exists []; split; [constructor | reflexivity] |].
  inversion HD as [| ? ? HD1 HD2]; subst.
  destruct (IH (Some (v_lay1 v)) HD1) as (sizes & F & E).
  { intros e w E Hw. injection E as <-. rewrite Forall_forall in HD2. apply HD2. exact Hw. }
  destruct (enc_cfg_table T v HW) as (size & R & E1). exists (size :: sizes). split; [constructor; assumption |].
  cbn [enc_iterators combine map fst snd]. rewrite E.
  replace (lay_start prev v) with 0; [rewrite E1; reflexivity |].
  unfold lay_start. destruct prev as [e |]; [| reflexivity]. specialize (HP e v eq_refl (or_introl eq_refl)).
  destruct (Z.gtb_spec (v_lay1 v) e); [lia | reflexivity].
Qed.

Lemma encode_list : forall T, wf T -> forall vs sizes, Forall (good T) vs -> Forall2 (fun _ => room T) vs sizes ->
  exists parts n0, Forall2 (fun v part => ordered T (v_order v) part /\ (forall q, In q part <-> within T v q)) vs parts /\
    forall n, (n0 <= n)%nat ->
    encode_all n n (map (fun vz => (table_cfg T (fst vz) (snd vz), v_order (fst vz))) (combine vs sizes)) = Some (concat parts).
Proof.
  intros T HW. induction vs as [| v vs IH]; intros sizes HG HR.
  - inversion HR; subst. exists [], 0%nat. split; [constructor | reflexivity].
  - inversion HR; subst. inversion HG; subst. rename l' into sizes.
    destruct (drain_part T v y (fun _ => 0) [] HW ltac:(assumption) ltac:(assumption)) as (part & m' & n1 & D & O & I & M').
    { intros q Hq. split; [intros _ [] | reflexivity]. }
    destruct (IH sizes ltac:(assumption) ltac:(assumption)) as (parts & n2 & S & D2).
    exists (part :: parts), (Nat.max n1 n2). split.
    { constructor; [| exact S]. split; [exact O |]. intros q. rewrite I. cbn [In]. tauto. }
    intros n Hn. cbn [combine map encode_all fst snd concat]. rewrite D by lia. rewrite D2 by lia. reflexivity.
Qed.

(** With disjoint volumes, both descriptions of the parts agree. *)
Lemma disjoint_sequence : forall T vs parts done,
  Forall2 (fun v part => ordered T (v_order v) part /\ (forall q, In q part <-> within T v q)) vs parts ->
  disjoint T vs -> (forall q v, In v vs -> within T v q -> ~ In q done) -> sequence T done vs parts.
Proof.
  intros T vs parts done F. revert done. induction F as [| v part vs parts [O I] F IH]; intros done HD HN; [constructor |].
  inversion HD as [| ? ? D1 D2]; subst. constructor; [exact O | |].
  - intros q. rewrite I. split; [| tauto]. intros Hq. split; [exact Hq |]. apply (HN q v); [left; reflexivity | exact Hq].
  - apply IH; [exact D2 |]. intros q w Hw Hq. rewrite in_app_iff, I. intros [A | A].
    + apply (HN q w); [right; exact Hw | exact Hq | exact A].
    + rewrite Forall_forall in D1. apply (D1 w Hw q). split; assumption.
Qed.

(** ** The description determines the packets *)

Lemma lexlt_asym : forall a b, lexlt a b -> lexlt b a -> False.
Proof.
  induction a as [| u a IH]; intros [| w b]; cbn [lexlt]; try tauto.
  intros [H | [-> H]] [H' | [E H']]; try lia. exact (IH b H H').
Qed.

Lemma sorted_unique : forall {A} (R : A -> A -> Prop), (forall a b, R a b -> R b a -> False) ->
  forall l l', StronglySorted R l -> StronglySorted R l' -> (forall a, In a l <-> In a l') -> l = l'.
Proof.
  intros A R AS. induction l as [| a l IH]; intros l' S S' E.
  - destruct l' as [| b l']; [reflexivity |]. destruct (proj2 (E b) (or_introl eq_refl)).
  - destruct l' as [| b l']; [destruct (proj1 (E a) (or_introl eq_refl)) |].
    inversion S as [| ? ? S1 F1]; subst. inversion S' as [| ? ? S1' F1']; subst.
    rewrite Forall_forall in F1, F1'.
    assert (a = b).
    { destruct (proj1 (E a) (or_introl eq_refl)) as [-> | Ha]; [reflexivity |].
      destruct (proj2 (E b) (or_introl eq_refl)) as [-> | Hb]; [reflexivity |].
      destruct (AS a b (F1 b Hb) (F1' a Ha)). }
    subst b. f_equal. apply IH; [exact S1 | exact S1' |]. intros c. split; intros Hc.
    + destruct (proj1 (E c) (or_intror Hc)) as [<- | H]; [| exact H]. destruct (AS a a (F1 a Hc) (F1 a Hc)).
    + destruct (proj2 (E c) (or_intror Hc)) as [<- | H]; [| exact H]. destruct (AS a a (F1' a Hc) (F1' a Hc)).
Qed.

Lemma ordered_unique : forall T o l l', ordered T o l -> ordered T o l' -> (forall q, In q l <-> In q l') -> l = l'.
Proof. intros T o l l' H H' E. apply (sorted_unique _ (fun a b => lexlt_asym _ _) l l' H H' E). Qed.

Lemma sequence_unique : forall T vs done parts parts', sequence T done vs parts -> sequence T done vs parts' -> parts = parts'.
Proof.
  intros T vs. induction vs as [| v vs IH]; intros done parts parts' S S'; inversion S; subst; inversion S'; subst; [reflexivity |].
  assert (part = part0). { apply (ordered_unique T (v_order v)); try assumption. intros q. rewrite H3, H6. reflexivity. }
  subst part0. f_equal. apply (IH (done ++ part)); assumption.
Qed.

Lemma NoDup_app_iff_local : forall {A} (l l' : list A),
  NoDup l /\ NoDup l' /\ (forall a, In a l -> In a l' -> False) -> NoDup (l ++ l').
Proof.
  intros A. induction l as [| a l IH]; intros l' (N & N' & D); [exact N' |]. inversion N; subst. cbn [app]. constructor.
  - rewrite in_app_iff. intros [H | H]; [contradiction | apply (D a); [left; reflexivity | exact H]].
  - apply IH. split; [assumption | split; [exact N' |]]. intros b H H'. apply (D b); [right; exact H | exact H'].
Qed.

Lemma sequence_in : forall T vs done parts, sequence T done vs parts -> NoDup (concat parts) /\
  (forall q, In q (concat parts) <-> Exists (fun v => within T v q) vs /\ ~ In q done).
Proof.
  intros T vs done parts S. induction S as [done | done v vs part parts O I S [N J]]; cbn [concat].
  - split; [constructor |]. intros q. split; [intros [] | intros [E _]; inversion E].
  - split.
    + apply NoDup_app_iff_local. split; [apply (ordered_NoDup T (v_order v)); exact O |]. split; [exact N |].
      intros q A B. apply J in B. destruct B as [_ B]. apply B. apply in_or_app. right. exact A.
    + intros q. rewrite in_app_iff, I, J, Exists_cons, in_app_iff, I. split; [tauto |]. intros [[A | A] B].
      * left. tauto.
      * destruct (In_dec (fun a b : packet => ltac:(repeat decide equality) : {a = b} + {a <> b}) q part) as [D | D].
        -- left. apply I. exact D.
        -- right. split; [exact A |]. intros [C | C]; [exact (B C) | apply D; apply I; exact C].
Qed.
