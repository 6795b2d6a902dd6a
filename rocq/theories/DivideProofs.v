(** The tile-parts of a tile divided at the outermost step of its order. *)

From Coq Require Import ZArith List Bool Lia Sorted.
From Verif Require Import Ints Mem PiModel PiRun PiLoops PiSpec PiMath PiProofs PiVisits PiDeliver PiProps DivideModel.
Import ListNotations.
Local Open Scope Z_scope.

(** ** The iterators with [tp_on] *)

Lemma drain_same : forall w g o n f first s (I : st -> Prop),
  (forall f first s, (first = true \/ I s) -> next_tp w g o f first s = next g o f first s /\
     (forall s', next g o f first s = Some (true, s') -> I s')) ->
  (first = true \/ I s) -> drain_tp w g o n f first s = option_map fst (drain g o n f first s).
Proof.
  intros w g o n f first s I H. revert first s. induction n as [| n IH]; intros first s HI; [reflexivity |].
  destruct (H f first s HI) as [E K]. cbn [drain_tp drain]. rewrite E.
  destruct (next g o f first s) as [[[] s'] |]; try reflexivity.
  rewrite (IH false s' (or_intror (K s' eq_refl))). destruct (drain g o n f false s') as [[l m] |]; reflexivity.
Qed.

Definition ends_at (g : cfg) (e c r : Z) : Prop := u32 (pw (res_of (comp_at g c) r) * ph (res_of (comp_at g c) r)) = e.
Definition evenly (g : cfg) (e : Z) : Prop := forall c r, c < comp1 g -> r < numres (comp_at g c) -> ends_at g e c r.

Definition seq_inv (g : cfg) (e : Z) (l : seq_label) (s : st) : Prop :=
  match l with SP | SA => ends_at g e (cp s) (rs s) | _ => True end.

Lemma seq_go : forall g e (a b : seq_label -> st -> move seq_label),
  (forall l s, seq_inv g e l s -> a l s = b l s /\
     match b l s with Goto l' s' => seq_inv g e l' s' | Found s' => seq_inv g e SA s' | Stop _ => True end) ->
  forall f l s, seq_inv g e l s -> go a f l s = go b f l s /\
    (forall s', go b f l s = Some (true, s') -> seq_inv g e SA s').
Proof.
  intros g e a b H. induction f as [| f IH]; intros l s HI; [split; [reflexivity | discriminate] |].
  destruct (H l s HI) as [E K]. cbn [go]. rewrite E. destruct (b l s) as [l' s' | s' | s'].
  - apply IH. exact K.
  - split; [reflexivity |]. intros s'' X. injection X as <-. exact K.
  - split; [reflexivity |]. intros s'' X. discriminate.
Qed.

Lemma probe_inv : forall g e s, ends_at g e (cp s) (rs s) ->
  match probe g SA s with Goto l' s' => seq_inv g e l' s' | Found s' => seq_inv g e SA s' | Stop _ => True end.
Proof.
  intros g e s H. unfold probe. cbv zeta. destruct (include_size g <=? _); [exact I |].
  destruct (incl s _ =? 0); exact H.
Qed.

Lemma lrcp_same : forall w g l s, evenly g (w_prc1 w) -> seq_inv g (w_prc1 w) l s ->
  lrcp_tp w g l s = lrcp g l s /\
  match lrcp g l s with Goto l' s' => seq_inv g (w_prc1 w) l' s' | Found s' => seq_inv g (w_prc1 w) SA s' | Stop _ => True end.
Proof.
  intros w g l s HE HI. destruct l; cbn [lrcp_tp lrcp seq_inv] in *.
  - split; [reflexivity | exact HI].
  - split; [reflexivity |]. destruct (_ <=? _); exact I.
  - split; [reflexivity |]. destruct (_ <? _); exact I.
  - unfold ends_at in HI. rewrite HI. split; [reflexivity |]. destruct (_ <? _); [| exact I]. apply probe_inv. exact HI.
  - split; [reflexivity | exact I].
  - split; [reflexivity |]. destruct (Z.ltb_spec (cp s) (comp1 g)) as [C | C]; [| exact I].
    destruct (Z.leb_spec (numres (comp_at g (cp s))) (rs s)) as [R | R]; [exact I |]. apply HE; assumption.
Qed.

Lemma rlcp_same : forall w g l s, evenly g (w_prc1 w) -> seq_inv g (w_prc1 w) l s ->
  rlcp_tp w g l s = rlcp g l s /\
  match rlcp g l s with Goto l' s' => seq_inv g (w_prc1 w) l' s' | Found s' => seq_inv g (w_prc1 w) SA s' | Stop _ => True end.
Proof.
  intros w g l s HE HI. destruct l; cbn [rlcp_tp rlcp seq_inv] in *.
  - split; [reflexivity | exact HI].
  - split; [reflexivity |]. destruct (_ <=? _); exact I.
  - split; [reflexivity |]. destruct (_ <? _); exact I.
  - unfold ends_at in HI. rewrite HI. split; [reflexivity |]. destruct (_ <? _); [| exact I]. apply probe_inv. exact HI.
  - split; [reflexivity | exact I].
  - split; [reflexivity |]. destruct (Z.ltb_spec (cp s) (comp1 g)) as [C | C]; [| exact I].
    destruct (Z.leb_spec (numres (comp_at g (cp s))) (rs s)) as [R | R]; [exact I |]. apply HE; assumption.
Qed.

Lemma drain_lrcp : forall w g n f s, evenly g (w_prc1 w) ->
  drain_tp w g LRCP n f true s = option_map fst (drain g LRCP n f true s).
Proof.
  intros w g n f s HE. apply (drain_same w g LRCP n f true s (seq_inv g (w_prc1 w) SA)); [| left; reflexivity].
  intros f' first s' HI. unfold next_tp, next. destruct (bad_comps g); [split; [reflexivity | discriminate] |].
  pose proof (seq_go g (w_prc1 w) (lrcp_tp w g) (lrcp g) (fun l s => lrcp_same w g l s HE) f') as G.
  destruct first; apply G; [exact I |]. destruct HI as [HI | HI]; [discriminate | exact HI].
Qed.

Lemma drain_rlcp : forall w g n f s, evenly g (w_prc1 w) ->
  drain_tp w g RLCP n f true s = option_map fst (drain g RLCP n f true s).
Proof.
  intros w g n f s HE. apply (drain_same w g RLCP n f true s (seq_inv g (w_prc1 w) SA)); [| left; reflexivity].
  intros f' first s' HI. unfold next_tp, next. destruct (bad_comps g); [split; [reflexivity | discriminate] |].
  pose proof (seq_go g (w_prc1 w) (rlcp_tp w g) (rlcp g) (fun l s => rlcp_same w g l s HE) f') as G.
  destruct first; apply G; [exact I |]. destruct HI as [HI | HI]; [discriminate | exact HI].
Qed.

Lemma go_ext : forall {L} (a b : L -> st -> move L), (forall l s, a l s = b l s) -> forall f l s, go a f l s = go b f l s.
Proof.
  intros L a b H. induction f as [| f IH]; intros l s; [reflexivity |]. cbn [go]. rewrite H. destruct (b l s); auto.
Qed.

Lemma drain_cprl : forall w g n f s, w_x0 w = tx0 g -> w_x1 w = tx1 g -> w_y0 w = ty0 g -> w_y1 w = ty1 g ->
  drain_tp w g CPRL n f true s = option_map fst (drain g CPRL n f true s).
Proof.
  intros w g n f s X0 X1 Y0 Y1. apply (drain_same w g CPRL n f true s (fun _ => True)); [| left; reflexivity].
  intros f' first s' _. split; [| auto]. unfold next_tp, next. destruct (bad_comps g); [reflexivity |].
  assert (E : forall l s, cprl_tp w g l s = cprl g l s).
  { intros l s0. destruct l; cbn [cprl_tp cprl]; rewrite ?X0, ?X1, ?Y0, ?Y1; reflexivity. }
  destruct first; apply go_ext; exact E.
Qed.

(** ** The iterator of a tile-part *)

(** The iterator of the whole tile, narrowed. *)
Definition part (T : tile) (size l0 l1 r0 r1 c0 c1 : Z) : cfg :=
  let cs := model_comps T in
  mkCfg cs (t_x0 T) (t_y0 T) (t_x1 T) (t_y1 T)
    (max_res cs * (Z.of_nat (length (t_comps T)) * max_prec cs)) (Z.of_nat (length (t_comps T)) * max_prec cs) (max_prec cs) 1 size
    l0 l1 r0 r1 c0 c1 0.

Lemma drain_narrow : forall T o size l0 l1 r0 r1 c0 c1, wf T -> order_ok T o -> room T size ->
  0 <= l0 -> l1 <= t_layers T -> 0 <= r0 -> r1 < 2 ^ 32 -> 0 <= c0 < Z.of_nat (length (t_comps T)) ->
  c1 <= Z.of_nat (length (t_comps T)) ->
  exists n0, forall n, (n0 <= n)%nat ->
    drain (part T size l0 l1 r0 r1 c0 c1) o n n true (mkSt 0 0 0 0 0 0 (fun _ => 0)) =
    Some (sift (part T size l0 l1 r0 r1 c0 c1) (fun _ => 0) (visits (part T size l0 l1 r0 r1 c0 c1) o)).
Proof.
  intros T o size l0 l1 r0 r1 c0 c1 HW HO HR L0 L1 R0 R1 C0 C1.
  set (v := mkVol o r0 r1 c0 c1 l1). pose proof (table_suits T v size HW HR) as HS.
  set (h := table_cfg T v size) in *. set (g := part T size l0 l1 r0 r1 c0 c1).
  pose proof HW as (W1 & W2 & W3 & W4 & W5 & W6 & _).
  assert (HA : forall l r c k, l0 <= l < l1 -> r0 <= r < r1 -> c0 <= c < c1 ->
    resolution T c r -> 0 <= k < wide T c r * high T c r -> index g l r c k < size).
  { intros l r c k Hl Hr Hc HRe Hk. apply (su_index _ _ _ HS (l, r, c, k)). destruct HRe as [HR1 HR2]. unfold valid. lia. }
  destruct (drain_visits g o (mkSt 0 0 0 0 0 0 (fun _ => 0))) as (n0 & f0 & H).
  - unfold bad_comps, numcomps. change (comps g) with (model_comps T). unfold model_comps. rewrite map_length.
    change (comp0 g) with c0. change (comp1 g) with c1. rewrite (proj2 (Z.leb_gt _ _)) by lia.
    rewrite u32_id by lia. rewrite (proj2 (Z.leb_gt _ _)) by lia. reflexivity.
  - unfold bounded. cbn [lay0 lay1 res0 res1 comp0 comp1 prec0 part g]. lia.
  - intros l r c p Hl Hr Hc Hn. cbv zeta. intros Hp. cbn [lay0 lay1 res0 res1 comp0 comp1 prec0 part g] in Hl, Hr, Hc.
    assert (Hc' : 0 <= c < Z.of_nat (length (t_comps T))) by lia.
    change (comp_at g c) with (comp_at h c) in Hn, Hp.
    rewrite (comp_at_spec T v h c HS Hc') in Hn, Hp. rewrite numres_make in Hn.
    assert (HRe : resolution T c r) by (split; [exact Hc' | lia]).
    rewrite (res_of_make T c r HW HRe) in Hp. cbn [pw ph prec0 part g] in Hp.
    rewrite u32_id in Hp by (apply area_bounds; assumption). apply HA; assumption.
  - intros l r c u w k Hl Hr Hc Hn Hu Hw Hk. cbn [lay0 lay1 res0 res1 comp0 comp1 prec0 part g] in Hl, Hr, Hc.
    assert (Hc' : 0 <= c < Z.of_nat (length (t_comps T))) by lia.
    change (comp_at g c) with (comp_at h c) in Hn, Hk.
    rewrite (comp_at_spec T v h c HS Hc') in Hn. rewrite numres_make in Hn.
    assert (HRe : resolution T c r) by (split; [exact Hc' | lia]).
    change (precinct_here g) with (precinct_here h) in Hk.
    apply (here_spec T v h c r u w k HW HS HRe) in Hk; [| exact Hu | exact Hw]. apply HA; tauto.
  - unfold placed. cbn [tx0 tx1 ty0 ty1 part g]. lia.
  - destruct o; cbn [steps_ok order_ok] in *; try exact I.
    + destruct HO as [OX OY]. split; [apply (all_step T v h true HW HS OX) | apply (all_step T v h false HW HS OY)].
    + destruct HO as (OX & OY & _). split; [apply (all_step T v h true HW HS OX) | apply (all_step T v h false HW HS OY)].
    + intros c Hc. assert (Hc' : 0 <= c < Z.of_nat (length (t_comps T))) by (cbn [comp0 comp1 part g] in Hc; lia).
      split; [apply (comp_step T v h c true HW HS HO Hc') | apply (comp_step T v h c false HW HS HO Hc')].
  - exists (Nat.max n0 f0). intros n Hn. apply H; lia.
Qed.

(** Nothing marked, nothing twice: all is delivered. *)
Lemma sift_all : forall T size l0 l1 r0 r1 c0 c1 vs, wf T -> room T size -> NoDup vs -> Forall (valid T) vs ->
  fst (sift (part T size l0 l1 r0 r1 c0 c1) (fun _ => 0) vs) = vs.
Proof.
  intros T size l0 l1 r0 r1 c0 c1 vs HW HR HN HV. set (v := mkVol LRCP r0 r1 c0 c1 l1).
  destruct (sift_spec T v (table_cfg T v size) vs (fun _ => 0) (table_suits T v size HW HR) HN HV) as [E _].
  change (sift (part T size l0 l1 r0 r1 c0 c1)) with (sift (table_cfg T v size)). rewrite E.
  clear. induction vs as [| q vs IH]; [reflexivity |]. cbn [filter Z.eqb] in *. f_equal. exact IH.
Qed.

Lemma part_cfg_table : forall T, wf T -> exists size, room T size /\
  forall w, w_prc0 w = 0 ->
  part_cfg (t_x0 T) (t_y0 T) (t_x1 T) (t_y1 T) (t_layers T) (t_comps T) w =
  part T size (w_lay0 w) (w_lay1 w) (w_res0 w) (w_res1 w) (w_comp0 w) (w_comp1 w).
Proof.
  intros T HW. destruct (table T HW) as (A0 & A1 & A2 & A3 & A4). cbv zeta in *. destruct HW as (_ & _ & _ & _ & HL & HC & _).
  unfold part_cfg, room. fold (model_comps T). unfold part.
  assert (LEN : length (model_comps T) = length (t_comps T)) by apply map_length. rewrite !LEN. clear LEN.
  clear A2 A3. set (mr := max_res (model_comps T)) in *. set (mp := max_prec (model_comps T)) in *.
  set (C := Z.of_nat (length (t_comps T))) in *. set (L := t_layers T) in *. clearbody mr mp C L.
  assert (X1 : mp <= C * mp) by nia. assert (X2 : C * mp <= mr * (C * mp)) by nia.
  assert (X3 : mr * (C * mp) <= (L + 1) * (mr * (C * mp))) by nia. assert (X4 : 0 <= L * (mr * (C * mp))) by nia.
  rewrite Z.mul_1_r. rewrite (u32_id mp) by lia. rewrite (u32_id (C * mp)) by lia. rewrite (u32_id (mr * (C * mp))) by lia.
  rewrite (u32_id (L * (mr * (C * mp)))) by lia.
  eexists. split; [| intros w ->; reflexivity]. lia.
Qed.

(** ** The loop *)

Definition from0 : st := mkSt 0 0 0 0 0 0 (fun _ => 0).

Lemma loop : forall T o (p : Z -> prog) (win : Z -> window) (F : Z -> list packet) N,
  (forall k, 0 <= k < N -> create_encode true (p k) k 0 = (p (k + 1), win k)) ->
  (forall k, g_order (p k) = o) ->
  (forall k, 0 <= k < N -> exists n0, forall n, (n0 <= n)%nat ->
     drain_tp (win k) (part_cfg (t_x0 T) (t_y0 T) (t_x1 T) (t_y1 T) (t_layers T) (t_comps T) (win k)) o n n true from0 = Some (F k)) ->
  forall count k, 0 <= k -> k + Z.of_nat count = N ->
  exists n0, forall n, (n0 <= n)%nat ->
    part_loop true (t_x0 T) (t_y0 T) (t_x1 T) (t_y1 T) (t_layers T) (t_comps T) n n 0 (p k) k count = Some (map F (range k N)).
Proof.
  intros T o p win F N HC HO HD. induction count as [| count IH]; intros k Hk E.
  - exists 0%nat. intros n _. rewrite range_nil by lia. reflexivity.
  - destruct (IH (k + 1) ltac:(lia) ltac:(lia)) as (n1 & H1). destruct (HD k ltac:(lia)) as (n2 & H2).
    exists (Nat.max n1 n2). intros n Hn. cbn [part_loop]. rewrite HC by lia. rewrite HO.
    change (mkSt 0 0 0 0 0 0 (fun _ => 0)) with from0. rewrite H2 by lia. rewrite H1 by lia.
    rewrite (range_cons k N) by lia. reflexivity.
Qed.

Lemma flat_map_concat : forall {A B} (f : A -> list B) l, flat_map f l = concat (map f l).
Proof. intros A B f l. apply flat_map_concat_map. Qed.

Lemma in_piece : forall (F : Z -> list packet) N k, 0 <= k < N -> exists a b, flat_map F (range 0 N) = a ++ F k ++ b.
Proof.
  intros F N k Hk. destruct (in_split k (range 0 N)) as (a & b & E); [apply in_range; exact Hk |].
  exists (flat_map F a), (flat_map F b). rewrite E, flat_map_app. reflexivity.
Qed.

Lemma NoDup_mid : forall {A} (a b c : list A), NoDup (a ++ b ++ c) -> NoDup b.
Proof.
  intros A a b c. induction a as [| x a IH]; cbn [app].
  - induction b as [| x b IH]; cbn [app]; intros H; [constructor |]. inversion H; subst. constructor.
    + intros X. apply H2. apply in_or_app. left. exact X.
    + apply IH. assumption.
  - intros H. inversion H; subst. apply IH. assumption.
Qed.

(** What is delivered when the pieces make up the visits of the whole tile. *)
Lemma pieces : forall T o (F : Z -> list packet) N size, wf T -> order_ok T o -> room T size ->
  visits (table_cfg T (all_of T o) size) o = flat_map F (range 0 N) ->
  forall k, 0 <= k < N -> NoDup (F k) /\ Forall (valid T) (F k).
Proof.
  intros T o F N size HW HO HR E k Hk. pose proof (all_of_good T o HW HO) as (HV & HL & _).
  pose proof (table_suits T (all_of T o) size HW HR) as HS.
  pose proof (visits_sorted T _ _ o HW HS HV HL HO) as SO. apply ordered_NoDup in SO.
  pose proof (fun q => visits_in T _ _ o q HW HS HV HL HO) as VI.
  rewrite E in SO. rewrite E in VI. destruct (in_piece F N k Hk) as (a & b & Eq). rewrite Eq in SO, VI. split.
  - exact (NoDup_mid _ _ _ SO).
  - apply Forall_forall. intros q Hq. apply (proj1 (VI q)). apply in_or_app. right. apply in_or_app. left. exact Hq.
Qed.

(** ** The three orders *)

Definition even_precincts (T : tile) : Prop :=
  forall c r c' r', resolution T c r -> resolution T c' r' -> wide T c r * high T c r = wide T c' r' * high T c' r'.

Lemma even_max : forall T c r, wf T -> even_precincts T -> resolution T c r ->
  wide T c r * high T c r = max_prec (model_comps T).
Proof.
  intros T c r HW HE HR. destruct (table T HW) as (A0 & A1 & A2 & A3 & A4). cbv zeta in *.
  apply Z.le_antisymm; [apply A2; exact HR |]. unfold max_prec. apply max_prec_le.
  - pose proof (area_bounds T c r HW HR). lia.
  - intros k q Hk Hq. apply in_model_comps in Hk. destruct Hk as (c' & Hc & ->).
    destruct (ress_area T c' q HW Hc Hq) as (r' & HR' & ->). rewrite (HE c r c' r' HR HR'). lia.
Qed.

Lemma even_part : forall T size l0 l1 r0 r1 c0 c1, wf T -> even_precincts T -> c1 <= Z.of_nat (length (t_comps T)) ->
  evenly (part T size l0 l1 r0 r1 c0 c1) (max_prec (model_comps T)).
Proof.
  intros T size l0 l1 r0 r1 c0 c1 HW HE C1 c r Hc Hr. cbn [comp1 part] in Hc.
  pose proof HW as (_ & _ & _ & _ & _ & W6 & _).
  assert (HC : 0 <= Z.of_nat (Z.to_nat c) < Z.of_nat (length (t_comps T))) by lia.
  assert (E : comp_at (part T size l0 l1 r0 r1 c0 c1) c = make_comp (t_x0 T) (t_y0 T) (t_x1 T) (t_y1 T) (par T (Z.of_nat (Z.to_nat c)))).
  { unfold comp_at, part, par. cbn [comps]. rewrite Nat2Z.id. unfold model_comps.
    rewrite (nth_indep _ _ (make_comp (t_x0 T) (t_y0 T) (t_x1 T) (t_y1 T) (mkParams 1 1 []))) by (rewrite map_length; lia).
    apply map_nth. }
  unfold ends_at. rewrite E in *. rewrite numres_make in Hr.
  destruct (par_wf T _ HW HC) as (_ & _ & NR & _).
  assert (HRe : resolution T (Z.of_nat (Z.to_nat c)) (Z.of_nat (Z.to_nat r))) by (split; [exact HC | lia]).
  pose proof (res_of_make T _ _ HW HRe) as Q. unfold res_of in Q |- *. rewrite Nat2Z.id in Q at 1. rewrite Q. cbn [pw ph].
  rewrite u32_id by (apply area_bounds; assumption). apply even_max; assumption.
Qed.

(** The outermost coordinate of a packet, and how many values it has. *)
Definition outer (o : order) (q : packet) : Z :=
  let '(l, r, c, k) := q in match o with LRCP => l | RLCP | RPCL => r | CPRL => c | PCRL => 0 end.
Definition outer_count (T : tile) (o : order) : Z :=
  match o with
  | LRCP => t_layers T
  | RLCP | RPCL => max_res (model_comps T)
  | CPRL => Z.of_nat (length (t_comps T))
  | PCRL => 1
  end.

Definition prog_of (T : tile) (o : order) : prog :=
  whole_prog (t_x0 T) (t_y0 T) (t_x1 T) (t_y1 T) (t_layers T) (t_comps T) o.

Definition prog_at (T : tile) (o : order) (k : Z) : prog :=
  match o with
  | LRCP => with_lay (prog_of T o) k
  | CPRL => with_comp (prog_of T o) k
  | _ => with_res (prog_of T o) k
  end.

Definition window_at (T : tile) (o : order) (k : Z) : window :=
  let R := max_res (model_comps T) in let C := Z.of_nat (length (t_comps T)) in
  let L := t_layers T in let M := max_prec (model_comps T) in
  match o with
  | LRCP => mkWin 0 R 0 C k (k + 1) 0 M 0 0 0 0
  | CPRL => mkWin 0 R k (k + 1) 0 L 0 0 (t_x0 T) (t_x1 T) (t_y0 T) (t_y1 T)
  | _ => mkWin k (k + 1) 0 C 0 L 0 M 0 0 0 0
  end.

Lemma create_lrcp : forall T k, 0 <= k < t_layers T -> t_layers T < 2 ^ 16 ->
  create_encode true (prog_at T LRCP k) k 0 = (prog_at T LRCP (k + 1), window_at T LRCP k).
Proof.
  intros T k Hk HL. pose proof (inc_small k ltac:(lia)) as I1. unfold create_encode, prog_at, prog_of, whole_prog.
  fold (model_comps T). cbn [negb]. destruct (Z.eqb_spec k 0) as [-> | E].
  - reflexivity.
  - cbn [next_steps get_step steps nth g_order with_lay with_t same_of_step next_of_step lay_t layE].
    rewrite (proj2 (Z.eqb_neq k (t_layers T))) by lia.
    unfold take_lay. cbn [next_steps lay_t with_lay with_t]. rewrite I1. reflexivity.
Qed.

Lemma create_rlcp : forall T k, 0 <= k < max_res (model_comps T) -> max_res (model_comps T) < 2 ^ 32 ->
  create_encode true (prog_at T RLCP k) k 0 = (prog_at T RLCP (k + 1), window_at T RLCP k).
Proof.
  intros T k Hk HL. pose proof (inc_small k ltac:(lia)) as I1. unfold create_encode, prog_at, prog_of, whole_prog.
  fold (model_comps T). cbn [negb]. destruct (Z.eqb_spec k 0) as [-> | E].
  - reflexivity.
  - cbn [next_steps get_step steps nth g_order with_res with_t same_of_step next_of_step res_t resE].
    rewrite (proj2 (Z.eqb_neq k (max_res (model_comps T)))) by lia.
    unfold take_res. cbn [next_steps res_t with_res with_t]. rewrite I1. reflexivity.
Qed.

Lemma create_cprl : forall T k, 0 <= k < Z.of_nat (length (t_comps T)) -> Z.of_nat (length (t_comps T)) < 2 ^ 32 ->
  create_encode true (prog_at T CPRL k) k 0 = (prog_at T CPRL (k + 1), window_at T CPRL k).
Proof.
  intros T k Hk HL. pose proof (inc_small k ltac:(lia)) as I1. unfold create_encode, prog_at, prog_of, whole_prog.
  fold (model_comps T). cbn [negb]. destruct (Z.eqb_spec k 0) as [-> | E].
  - reflexivity.
  - cbn [next_steps get_step steps nth g_order with_comp with_t same_of_step next_of_step comp_t compE].
    rewrite (proj2 (Z.eqb_neq k (Z.of_nat (length (t_comps T))))) by lia.
    unfold take_comp. cbn [next_steps comp_t with_comp with_t]. rewrite I1. reflexivity.
Qed.

Lemma max_res_small : forall T, wf T -> 1 <= max_res (model_comps T) <= 33.
Proof.
  intros T HW. destruct (table T HW) as (_ & A1 & _). split; [exact A1 |]. unfold max_res. apply fold_max_le; [lia |].
  intros k Hk. apply in_model_comps in Hk. destruct Hk as (c & Hc & ->). rewrite numres_make.
  destruct (par_wf T c HW Hc) as (_ & _ & N & _). lia.
Qed.

(** The piece of the visits of the whole tile in tile-part [k]. *)
Definition piece (T : tile) (size : Z) (o : order) (k : Z) : list packet :=
  let w := window_at T o k in
  visits (part T size (w_lay0 w) (w_lay1 w) (w_res0 w) (w_res1 w) (w_comp0 w) (w_comp1 w)) o.

Definition divisible (T : tile) (o : order) : Prop :=
  match o with LRCP | RLCP => even_precincts T | CPRL => True | _ => False end.

Lemma range_one : forall k, range k (k + 1) = [k].
Proof. intros k. rewrite range_cons by lia. rewrite range_nil by lia. reflexivity. Qed.

Lemma piece_visits : forall T size o, divisible T o ->
  visits (table_cfg T (all_of T o) size) o = flat_map (piece T size o) (range 0 (outer_count T o)).
Proof.
  intros T size o HD. destruct o; cbn [divisible] in HD; try contradiction.
  - cbn [visits outer_count]. unfold lrcp_visits at 1. change (lay0 (table_cfg T (all_of T LRCP) size)) with 0.
    change (lay1 (table_cfg T (all_of T LRCP) size)) with (t_layers T). apply flat_map_ext. intros k.
    unfold piece. cbn [visits]. unfold lrcp_visits. cbn [window_at w_lay0 w_lay1 lay0 lay1 part]. rewrite range_one.
    cbn [flat_map]. rewrite app_nil_r. reflexivity.
  - cbn [visits outer_count]. unfold rlcp_visits at 1. change (res0 (table_cfg T (all_of T RLCP) size)) with 0.
    change (res1 (table_cfg T (all_of T RLCP) size)) with (max_res (model_comps T)). apply flat_map_ext. intros k.
    unfold piece. cbn [visits]. unfold rlcp_visits. cbn [window_at w_res0 w_res1 res0 res1 part]. rewrite range_one.
    cbn [flat_map]. rewrite app_nil_r. reflexivity.
  - cbn [visits outer_count]. unfold cprl_visits at 1. change (comp0 (table_cfg T (all_of T CPRL) size)) with 0.
    change (comp1 (table_cfg T (all_of T CPRL) size)) with (Z.of_nat (length (t_comps T))). apply flat_map_ext. intros k.
    unfold piece. cbn [visits]. unfold cprl_visits. cbn [window_at w_comp0 w_comp1 comp0 comp1 part]. rewrite range_one.
    cbn [flat_map]. rewrite app_nil_r. reflexivity.
Qed.

Lemma piece_outer : forall T size o k q, divisible T o -> In q (piece T size o k) -> outer o q = k.
Proof.
  intros T size o k q HD HI. destruct o; cbn [divisible] in HD; try contradiction; unfold piece in HI; cbn [visits window_at
    w_lay0 w_lay1 w_res0 w_res1 w_comp0 w_comp1] in HI.
  - unfold lrcp_visits in HI. cbn [lay0 lay1 part] in HI. rewrite range_one in HI. cbn [flat_map] in HI. rewrite app_nil_r in HI.
    apply in_flat_map in HI. destruct HI as (r & _ & HI). apply in_flat_map in HI. destruct HI as (c & _ & HI).
    unfold precincts in HI. cbv zeta in HI. destruct (_ <=? _); [destruct HI |].
    apply in_flat_map in HI. destruct HI as (p & _ & [<- | []]). reflexivity.
  - unfold rlcp_visits in HI. cbn [res0 res1 part] in HI. rewrite range_one in HI. cbn [flat_map] in HI. rewrite app_nil_r in HI.
    apply in_flat_map in HI. destruct HI as (r & _ & HI). apply in_flat_map in HI. destruct HI as (c & _ & HI).
    unfold precincts in HI. cbv zeta in HI. destruct (_ <=? _); [destruct HI |].
    apply in_flat_map in HI. destruct HI as (p & _ & [<- | []]). reflexivity.
  - unfold cprl_visits in HI. cbn [comp0 comp1 part] in HI. rewrite range_one in HI. cbn [flat_map] in HI. rewrite app_nil_r in HI.
    apply in_flat_map in HI. destruct HI as (v & _ & HI). apply in_flat_map in HI. destruct HI as (u & _ & HI).
    apply in_flat_map in HI. destruct HI as (r & _ & HI). unfold at_point in HI. destruct (negb _); [destruct HI |].
    destruct (precinct_here _ _ _ _ _); [| destruct HI]. apply in_flat_map in HI. destruct HI as (l & _ & [<- | []]). reflexivity.
Qed.

Lemma piece_drain : forall T o size k, wf T -> order_ok T o -> divisible T o -> room T size ->
  (forall w, w_prc0 w = 0 -> part_cfg (t_x0 T) (t_y0 T) (t_x1 T) (t_y1 T) (t_layers T) (t_comps T) w =
     part T size (w_lay0 w) (w_lay1 w) (w_res0 w) (w_res1 w) (w_comp0 w) (w_comp1 w)) ->
  0 <= k < outer_count T o ->
  exists n0, forall n, (n0 <= n)%nat ->
    drain_tp (window_at T o k) (part_cfg (t_x0 T) (t_y0 T) (t_x1 T) (t_y1 T) (t_layers T) (t_comps T) (window_at T o k)) o n n true from0
    = Some (piece T size o k).
Proof.
  intros T o size k HW HO HD HR HP Hk.
  destruct (pieces T o (piece T size o) (outer_count T o) size HW HO HR (piece_visits T size o HD) k Hk) as [N V].
  pose proof (max_res_small T HW) as MR. pose proof HW as (_ & _ & _ & _ & W5 & W6 & _).
  assert (B : let w := window_at T o k in w_prc0 w = 0 /\ 0 <= w_lay0 w /\ w_lay1 w <= t_layers T /\ 0 <= w_res0 w /\ w_res1 w < 2 ^ 32 /\
            0 <= w_comp0 w < Z.of_nat (length (t_comps T)) /\ w_comp1 w <= Z.of_nat (length (t_comps T))).
  { destruct o; cbn [divisible] in HD; try contradiction; cbn [outer_count window_at w_prc0 w_lay0 w_lay1 w_res0 w_res1 w_comp0 w_comp1] in *; cbv zeta; lia. }
  cbv zeta in B. destruct B as (B0 & B1 & B2 & B3 & B4 & B5 & B6). rewrite (HP _ B0).
  destruct (drain_narrow T o size (w_lay0 (window_at T o k)) (w_lay1 (window_at T o k)) (w_res0 (window_at T o k))
    (w_res1 (window_at T o k)) (w_comp0 (window_at T o k)) (w_comp1 (window_at T o k)) HW HO HR B1 B2 B3 B4 B5 B6) as (n0 & H).
  exists n0. intros n Hn. specialize (H n Hn). change (mkSt 0 0 0 0 0 0 (fun _ => 0)) with from0 in H.
  match goal with |- ?l = _ => assert (E : l = option_map fst (drain (part T size (w_lay0 (window_at T o k)) (w_lay1 (window_at T o k)) (w_res0 (window_at T o k))
    (w_res1 (window_at T o k)) (w_comp0 (window_at T o k)) (w_comp1 (window_at T o k))) o n n true from0)) end.
  { destruct o; cbn [divisible] in HD; try contradiction.
    - apply drain_lrcp. change (w_prc1 (window_at T LRCP k)) with (max_prec (model_comps T)). apply even_part; assumption.
    - apply drain_rlcp. change (w_prc1 (window_at T RLCP k)) with (max_prec (model_comps T)). apply even_part; assumption.
    - apply drain_cprl; reflexivity. }
  rewrite E, H. cbn [option_map]. rewrite sift_all by assumption. reflexivity.
Qed.

Lemma divided : forall T o, wf T -> order_ok T o -> divisible T o -> 1 <= t_layers T ->
  exists size n0, room T size /\ forall n, (n0 <= n)%nat ->
    tile_parts true (letter (get_step o 0)) (t_x0 T) (t_y0 T) (t_x1 T) (t_y1 T) (t_layers T) (t_comps T) o n n
    = Some (map (piece T size o) (range 0 (outer_count T o))).
Proof.
  intros T o HW HO HD HL. destruct (part_cfg_table T HW) as (size & HR & HP). exists size.
  pose proof (max_res_small T HW) as MR. pose proof HW as (_ & _ & _ & _ & W5 & W6 & _).
  assert (OC : 1 <= outer_count T o < 2 ^ 32) by (destruct o; cbn [outer_count]; lia).
  destruct (loop T o (prog_at T o) (window_at T o) (piece T size o) (outer_count T o)) with (count := Z.to_nat (outer_count T o)) (k := 0) as (n0 & H).
  - intros k Hk. destruct o; cbn [divisible] in HD; try contradiction; cbn [outer_count] in *.
    + apply create_lrcp; lia.
    + apply create_rlcp; lia.
    + apply create_cprl; lia.
  - intros k. destruct o; reflexivity.
  - intros k Hk. apply piece_drain; assumption.
  - lia.
  - lia.
  - exists n0. split; [exact HR |]. intros n Hn. rewrite <- (H n Hn). unfold tile_parts.
    assert (E : get_num_tp true (letter (get_step o 0)) (prog_of T o) = Some (outer_count T o, 0%nat)).
    { destruct o; cbn [divisible] in HD; try contradiction; unfold get_num_tp; cbn [known negb prog_of whole_prog g_order steps num_tp_loop get_step nth letter];
        rewrite Z.eqb_refl; rewrite Z.mul_1_l; rewrite u32_id by (cbn [outer_count] in OC; unfold is_u32; fold (model_comps T) in *; cbn [layE resE compE whole_prog prog_of]; fold (model_comps T); lia); reflexivity. }
    fold (prog_of T o). rewrite E. replace (Nat.max 1 (Z.to_nat (outer_count T o))) with (Z.to_nat (outer_count T o)) by lia.
    f_equal. destruct o; cbn [divisible] in HD; try contradiction; reflexivity.
Qed.
