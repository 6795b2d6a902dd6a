(** Which packets are visited, in which order, and what is delivered. *)

From Coq Require Import ZArith List Bool Lia Sorted.
From Verif Require Import Ints Mem PiModel PiRun PiLoops PiSpec PiMath PiProofs.
Import ListNotations.
Local Open Scope Z_scope.

(** ** Membership *)

Lemma in_precincts : forall T v g l r c q, wf T -> suits T v g -> 0 <= c < Z.of_nat (length (t_comps T)) -> 0 <= r ->
  In q (precincts g l r c) <-> exists k, q = (l, r, c, k) /\ r < nres (par T c) /\ 0 <= k < wide T c r * high T c r.
Proof.
  intros T v g l r c q HW HS Hc Hr. unfold precincts. rewrite (comp_at_spec T v g c HS Hc). rewrite numres_make.
  destruct (Z.leb_spec (nres (par T c)) r) as [E | E].
  - split; [intros [] |]. intros (k & _ & H & _). lia.
  - assert (HR : resolution T c r) by (split; lia). rewrite (res_of_make T c r HW HR). cbv zeta. cbn [pw ph].
    rewrite u32_id by (apply area_bounds; assumption). rewrite (su_prec0 _ _ _ HS). rewrite in_flat_map. split.
    + intros (k & Hk & [<- | []]). apply in_range in Hk. exists k. auto.
    + intros (k & -> & _ & Hk). exists k. split; [apply in_range; exact Hk | left; reflexivity].
Qed.

Lemma in_at_point : forall T v g fits r u w c q, wf T -> suits T v g -> resolution T c r -> v_lay1 v <= t_layers T ->
  fits (comp_at g c) r = true -> t_x0 T <= u < t_x1 T -> t_y0 T <= w < t_y1 T ->
  In q (at_point g fits r u w c) <->
  exists l k, q = (l, r, c, k) /\ 0 <= l < v_lay1 v /\ 0 <= k < wide T c r * high T c r /\ px T c r k = u /\ py T c r k = w.
Proof.
  intros T v g fits r u w c q HW HS HR HL HF Hu Hw. unfold at_point. rewrite HF. cbn [negb].
  pose proof (fun k => here_spec T v g c r u w k HW HS HR Hu Hw) as H.
  destruct (precinct_here g (comp_at g c) r u w) as [k |].
  - rewrite in_flat_map, (su_lay0 _ _ _ HS), (su_lay1 _ _ _ HS). split.
    + intros (l & Hl & [<- | []]). apply in_range in Hl. exists l, k.
      split; [reflexivity |]. split; [exact Hl |]. apply H. reflexivity.
    + intros (l & k' & -> & Hl & Hk). exists l. split; [apply in_range; exact Hl |]. left.
      apply H in Hk. congruence.
  - split; [intros [] |]. intros (l & k & -> & _ & Hk). apply H in Hk. discriminate.
Qed.

Lemma step_hits : forall t0 t1 d g p, 0 < d -> (d | g) -> t0 <= p < t1 -> (p = t0 \/ (g | p)) -> In p (positions d t0 t1).
Proof.
  intros t0 t1 d g p Hd Hg Hp H. apply in_positions; [exact Hd |]. split; [exact Hp |].
  destruct H as [H | H]; [left; exact H | right; eapply Z.divide_trans; eassumption].
Qed.

Lemma visits_in : forall T v g o q, wf T -> suits T v g -> volume_ok T v -> v_lay1 v <= t_layers T -> order_ok T o ->
  In q (visits g o) <-> within T v q.
Proof.
  intros T v g o q HW HS (V1 & V2 & V3 & V4) HL HO. destruct q as [[[l r] c] k].
  unfold within, valid. destruct o; cbn [visits order_ok] in *.
  - unfold lrcp_visits. rewrite (su_lay0 _ _ _ HS), (su_lay1 _ _ _ HS), (su_res0 _ _ _ HS), (su_res1 _ _ _ HS), (su_comp0 _ _ _ HS), (su_comp1 _ _ _ HS).
    split.
    + intros H. apply in_flat_map in H. destruct H as (l' & Hl & H). apply in_flat_map in H. destruct H as (r' & Hr & H).
      apply in_flat_map in H. destruct H as (c' & Hc & H). apply in_range in Hl, Hr, Hc.
      apply (in_precincts T v g) in H; [| assumption | assumption | lia | lia].
      destruct H as (k' & E & Hn & Hk). injection E as -> -> -> ->. lia.
    + intros H. apply in_flat_map. exists l. split; [apply in_range; lia |]. apply in_flat_map. exists r. split; [apply in_range; lia |].
      apply in_flat_map. exists c. split; [apply in_range; lia |]. apply (in_precincts T v g); try assumption; try lia.
      exists k. split; [reflexivity | lia].
  - unfold rlcp_visits. rewrite (su_lay0 _ _ _ HS), (su_lay1 _ _ _ HS), (su_res0 _ _ _ HS), (su_res1 _ _ _ HS), (su_comp0 _ _ _ HS), (su_comp1 _ _ _ HS).
    split.
    + intros H. apply in_flat_map in H. destruct H as (r' & Hr & H). apply in_flat_map in H. destruct H as (l' & Hl & H).
      apply in_flat_map in H. destruct H as (c' & Hc & H). apply in_range in Hl, Hr, Hc.
      apply (in_precincts T v g) in H; [| assumption | assumption | lia | lia].
      destruct H as (k' & E & Hn & Hk). injection E as -> -> -> ->. lia.
    + intros H. apply in_flat_map. exists r. split; [apply in_range; lia |]. apply in_flat_map. exists l. split; [apply in_range; lia |].
      apply in_flat_map. exists c. split; [apply in_range; lia |]. apply (in_precincts T v g); try assumption; try lia.
      exists k. split; [reflexivity | lia].
  - destruct HO as [OX OY]. destruct (all_step T v g true HW HS OX) as [SX DX]. destruct (all_step T v g false HW HS OY) as [SY DY].
    cbv zeta in *. cbn iota in *.
    unfold rpcl_visits. rewrite (su_x0 _ _ _ HS), (su_x1 _ _ _ HS), (su_y0 _ _ _ HS), (su_y1 _ _ _ HS), (su_res0 _ _ _ HS), (su_res1 _ _ _ HS), (su_comp0 _ _ _ HS), (su_comp1 _ _ _ HS).
    split.
    + intros H. apply in_flat_map in H. destruct H as (r' & Hr & H). apply in_flat_map in H. destruct H as (w & Hw & H).
      apply in_flat_map in H. destruct H as (u & Hu & H). apply in_flat_map in H. destruct H as (c' & Hc & H).
      apply in_range in Hr, Hc. apply in_positions in Hw; [| lia]. apply in_positions in Hu; [| lia].
      rewrite (comp_at_spec T v g c' HS) in H by lia. rewrite numres_make in H.
      destruct (Z.leb_spec (nres (par T c')) r') as [E | E]; [destruct H |].
      assert (HR : resolution T c' r') by (split; lia).
      apply (in_at_point T v g) in H; try assumption; try tauto; [| apply (fits64_true T v g); assumption].
      destruct H as (l' & k' & Eq & Hl & Hk & _). injection Eq as -> -> -> ->. lia.
    + intros ((Hl & Hc & Hr & Hk) & Hl' & Hr' & Hc').
      assert (HR : resolution T c r) by (split; lia).
      destruct (anchors_in_tile T c r k HW HR Hk) as (A1 & A2 & A3 & A4).
      apply in_flat_map. exists r. split; [apply in_range; lia |].
      apply in_flat_map. exists (py T c r k). split; [eapply step_hits; [lia | apply (DY c r HR) | exact A2 | exact A4] |].
      apply in_flat_map. exists (px T c r k). split; [eapply step_hits; [lia | apply (DX c r HR) | exact A1 | exact A3] |].
      apply in_flat_map. exists c. split; [apply in_range; lia |].
      rewrite (comp_at_spec T v g c HS) by lia. rewrite numres_make. rewrite (proj2 (Z.leb_gt _ _)) by lia.
      apply (in_at_point T v g); try assumption; [apply (fits64_true T v g); assumption |]. exists l, k. repeat split; lia.
  - destruct HO as (OX & OY & ON). destruct (all_step T v g true HW HS OX) as [SX DX]. destruct (all_step T v g false HW HS OY) as [SY DY].
    cbv zeta in *. cbn iota in *.
    unfold pcrl_visits. rewrite (su_x0 _ _ _ HS), (su_x1 _ _ _ HS), (su_y0 _ _ _ HS), (su_y1 _ _ _ HS), (su_res0 _ _ _ HS), (su_res1 _ _ _ HS), (su_comp0 _ _ _ HS), (su_comp1 _ _ _ HS).
    split.
    + intros H. apply in_flat_map in H. destruct H as (w & Hw & H).
      apply in_flat_map in H. destruct H as (u & Hu & H). apply in_flat_map in H. destruct H as (c' & Hc & H).
      apply in_flat_map in H. destruct H as (r' & Hr & H).
      apply in_range in Hc. rewrite (comp_at_spec T v g c' HS) in Hr by lia. rewrite numres_make in Hr. apply in_range in Hr.
      apply in_positions in Hw; [| lia]. apply in_positions in Hu; [| lia].
      assert (HR : resolution T c' r') by (split; lia).
      apply (in_at_point T v g) in H; try assumption; try tauto; [| apply (fits32_true T v g); assumption].
      destruct H as (l' & k' & Eq & Hl & Hk & _). injection Eq as -> -> -> ->. lia.
    + intros ((Hl & Hc & Hr & Hk) & Hl' & Hr' & Hc').
      assert (HR : resolution T c r) by (split; lia).
      destruct (anchors_in_tile T c r k HW HR Hk) as (A1 & A2 & A3 & A4).
      apply in_flat_map. exists (py T c r k). split; [eapply step_hits; [lia | apply (DY c r HR) | exact A2 | exact A4] |].
      apply in_flat_map. exists (px T c r k). split; [eapply step_hits; [lia | apply (DX c r HR) | exact A1 | exact A3] |].
      apply in_flat_map. exists c. split; [apply in_range; lia |].
      apply in_flat_map. exists r. split; [apply in_range; rewrite (comp_at_spec T v g c HS) by lia; rewrite numres_make; lia |].
      apply (in_at_point T v g); try assumption; [apply (fits32_true T v g); assumption |]. exists l, k. repeat split; lia.
  - unfold cprl_visits. rewrite (su_x0 _ _ _ HS), (su_x1 _ _ _ HS), (su_y0 _ _ _ HS), (su_y1 _ _ _ HS), (su_res0 _ _ _ HS), (su_res1 _ _ _ HS), (su_comp0 _ _ _ HS), (su_comp1 _ _ _ HS).
    split.
    + intros H. apply in_flat_map in H. destruct H as (c' & Hc & H). apply in_range in Hc.
      destruct (comp_step T v g c' true HW HS HO ltac:(lia)) as [SX DX]. destruct (comp_step T v g c' false HW HS HO ltac:(lia)) as [SY DY].
      cbv zeta in *. cbn iota in *.
      apply in_flat_map in H. destruct H as (w & Hw & H).
      apply in_flat_map in H. destruct H as (u & Hu & H).
      apply in_flat_map in H. destruct H as (r' & Hr & H).
      rewrite (comp_at_spec T v g c' HS) in Hr by lia. rewrite numres_make in Hr. apply in_range in Hr.
      apply in_positions in Hw; [| lia]. apply in_positions in Hu; [| lia].
      assert (HR : resolution T c' r') by (split; lia).
      apply (in_at_point T v g) in H; try assumption; try tauto; [| apply (fits32_true T v g); assumption].
      destruct H as (l' & k' & Eq & Hl & Hk & _). injection Eq as -> -> -> ->. lia.
    + intros ((Hl & Hc & Hr & Hk) & Hl' & Hr' & Hc').
      assert (HR : resolution T c r) by (split; lia).
      destruct (comp_step T v g c true HW HS HO ltac:(lia)) as [SX DX]. destruct (comp_step T v g c false HW HS HO ltac:(lia)) as [SY DY].
      cbv zeta in *. cbn iota in *.
      destruct (anchors_in_tile T c r k HW HR Hk) as (A1 & A2 & A3 & A4).
      apply in_flat_map. exists c. split; [apply in_range; lia |].
      apply in_flat_map. exists (py T c r k). split; [eapply step_hits; [lia | apply (DY r Hr) | exact A2 | exact A4] |].
      apply in_flat_map. exists (px T c r k). split; [eapply step_hits; [lia | apply (DX r Hr) | exact A1 | exact A3] |].
      apply in_flat_map. exists r. split; [apply in_range; rewrite (comp_at_spec T v g c HS) by lia; rewrite numres_make; lia |].
      apply (in_at_point T v g); try assumption; [apply (fits32_true T v g); assumption |]. exists l, k. repeat split; lia.
Qed.

(** ** Order *)

Definition later (n : nat) (K : packet -> list Z) (p q : packet) : Prop := lexlt (skipn n (K p)) (skipn n (K q)).

Lemma skipn_nth : forall {A} n (l : list A) v, nth_error l n = Some v -> skipn n l = v :: skipn (S n) l.
Proof.
  induction n; intros l v H; destruct l as [| a l]; cbn [nth_error] in H; try discriminate.
  - injection H as ->. reflexivity.
  - cbn [skipn]. apply IHn in H. rewrite H. reflexivity.
Qed.

Lemma sorted_app : forall {A} (R : A -> A -> Prop) a b, StronglySorted R a -> StronglySorted R b ->
  (forall x y, In x a -> In y b -> R x y) -> StronglySorted R (a ++ b).
Proof.
  intros A R. induction a as [| x a IH]; intros b Ha Hb H; [exact Hb |]. cbn [app].
  apply StronglySorted_inv in Ha. destruct Ha as [Ha Hx]. constructor.
  - apply IH; try assumption. intros; apply H; [right |]; assumption.
  - apply Forall_app. split; [exact Hx |]. apply Forall_forall. intros y Hy. apply H; [left; reflexivity | exact Hy].
Qed.

Lemma sorted_nest : forall (f : Z -> list packet) n K vs, StronglySorted Z.lt vs ->
  (forall v p, In v vs -> In p (f v) -> nth_error (K p) n = Some v) ->
  (forall v, In v vs -> StronglySorted (later (S n) K) (f v)) ->
  StronglySorted (later n K) (flat_map f vs).
Proof.
  intros f n K. induction vs as [| v vs IH]; intros HV HK HF; cbn [flat_map]; [constructor |].
  apply StronglySorted_inv in HV. destruct HV as [HV Hlt]. apply sorted_app.
  - assert (G : forall l, (forall p, In p l -> nth_error (K p) n = Some v) -> StronglySorted (later (S n) K) l -> StronglySorted (later n K) l).
    { induction l as [| p l IHl]; intros Hn Hs; [constructor |]. apply StronglySorted_inv in Hs. destruct Hs as [Hs Hp].
      constructor; [apply IHl; [intros; apply Hn; right; assumption | exact Hs] |].
      rewrite Forall_forall in *. intros q Hq. unfold later. rewrite (skipn_nth n (K p) v), (skipn_nth n (K q) v).
      - cbn [lexlt]. right. split; [reflexivity |]. apply Hp. exact Hq.
      - apply Hn. right. exact Hq.
      - apply Hn. left. reflexivity. }
    apply G; [intros p Hp; apply HK; [left; reflexivity | exact Hp] | apply HF; left; reflexivity].
  - apply IH; [exact HV | intros; apply HK; [right |]; assumption | intros; apply HF; right; assumption].
  - intros p q Hp Hq. apply in_flat_map in Hq. destruct Hq as (w & Hw & Hq). unfold later.
    rewrite (skipn_nth n (K p) v) by (apply HK; [left; reflexivity | exact Hp]).
    rewrite (skipn_nth n (K q) w) by (apply HK; [right; exact Hw | exact Hq]).
    cbn [lexlt]. left. rewrite Forall_forall in Hlt. apply Hlt. exact Hw.
Qed.

Lemma range_sorted : forall a b, StronglySorted Z.lt (range a b).
Proof.
  intros a b. remember (Z.to_nat (b - a)) as n eqn:E. revert a E. induction n; intros a E.
  - rewrite range_nil by lia. constructor.
  - rewrite range_cons by lia. constructor; [apply IHn; lia |]. apply Forall_forall. intros v Hv. apply in_range in Hv. lia.
Qed.

Lemma positions_sorted : forall d a b, 0 < d -> StronglySorted Z.lt (positions d a b).
Proof.
  intros d a b Hd. unfold positions. assert (G : forall n a, (Z.to_nat (b - a) <= n)%nat -> StronglySorted Z.lt (positions_from n d a b)).
  { clear a. induction n; intros a Hn; cbn [positions_from]; [constructor |].
    destruct (Z.ltb_spec a b) as [H | H]; [| constructor]. pose proof (step_up d a Hd) as U.
    constructor; [apply IHn; lia |]. apply Forall_forall. intros v Hv. apply positions_from_in in Hv; [| exact Hd | lia]. lia. }
  apply G. lia.
Qed.

Lemma nil_sorted : forall n K, StronglySorted (later n K) [].
Proof. constructor. Qed.

Lemma one_sorted : forall n K p, StronglySorted (later n K) [p].
Proof. intros. constructor; constructor. Qed.

Lemma at_point_sorted : forall T v g fits r u w c n K, suits T v g ->
  (forall l k, nth_error (K (l, r, c, k)) n = Some l) -> StronglySorted (later n K) (at_point g fits r u w c).
Proof.
  intros T v g fits r u w c n K HS HK. unfold at_point. destruct (negb _); [constructor |].
  destruct (precinct_here _ _ _ _ _) as [k |]; [| constructor].
  apply sorted_nest; [apply range_sorted | |].
  - intros l p _ [<- | []]. apply HK.
  - intros. apply one_sorted.
Qed.

Lemma visits_sorted : forall T v g o, wf T -> suits T v g -> volume_ok T v -> v_lay1 v <= t_layers T -> order_ok T o ->
  ordered T o (visits g o).
Proof.
  intros T v g o HW HS (V1 & V2 & V3 & V4) HL HO.
  change (ordered T o (visits g o)) with (StronglySorted (later 0 (key T o)) (visits g o)).
  destruct o; cbn [visits order_ok] in *.
  - unfold lrcp_visits. apply sorted_nest; [apply range_sorted | |].
    + intros l p Hl H. apply in_flat_map in H. destruct H as (r & Hr & H). apply in_flat_map in H. destruct H as (c & Hc & H).
      rewrite (su_res0 _ _ _ HS) in Hr. rewrite (su_comp0 _ _ _ HS), (su_comp1 _ _ _ HS) in Hc. apply in_range in Hr, Hc.
      apply (in_precincts T v g) in H; [| assumption | assumption | lia | lia]. destruct H as (k & -> & _). reflexivity.
    + intros l _. apply sorted_nest; [apply range_sorted | |].
      * intros r p Hr H. apply in_flat_map in H. destruct H as (c & Hc & H).
        rewrite (su_res0 _ _ _ HS) in Hr. rewrite (su_comp0 _ _ _ HS), (su_comp1 _ _ _ HS) in Hc. apply in_range in Hr, Hc.
        apply (in_precincts T v g) in H; [| assumption | assumption | lia | lia]. destruct H as (k & -> & _). reflexivity.
      * intros r Hr. apply sorted_nest; [apply range_sorted | |].
        -- intros c p Hc H. rewrite (su_res0 _ _ _ HS) in Hr. rewrite (su_comp0 _ _ _ HS), (su_comp1 _ _ _ HS) in Hc. apply in_range in Hr, Hc.
           apply (in_precincts T v g) in H; [| assumption | assumption | lia | lia]. destruct H as (k & -> & _). reflexivity.
        -- intros c _. unfold precincts. destruct (_ <=? _); [constructor |]. apply sorted_nest; [apply range_sorted | |].
           ++ intros k p _ [<- | []]. reflexivity.
           ++ intros. apply one_sorted.
  - unfold rlcp_visits. apply sorted_nest; [apply range_sorted | |].
    + intros r p Hr H. apply in_flat_map in H. destruct H as (l & Hl & H). apply in_flat_map in H. destruct H as (c & Hc & H).
      rewrite (su_res0 _ _ _ HS) in Hr. rewrite (su_comp0 _ _ _ HS), (su_comp1 _ _ _ HS) in Hc. apply in_range in Hr, Hc.
      apply (in_precincts T v g) in H; [| assumption | assumption | lia | lia]. destruct H as (k & -> & _). reflexivity.
    + intros r Hr. apply sorted_nest; [apply range_sorted | |].
      * intros l p Hl H. apply in_flat_map in H. destruct H as (c & Hc & H).
        rewrite (su_res0 _ _ _ HS) in Hr. rewrite (su_comp0 _ _ _ HS), (su_comp1 _ _ _ HS) in Hc. apply in_range in Hr, Hc.
        apply (in_precincts T v g) in H; [| assumption | assumption | lia | lia]. destruct H as (k & -> & _). reflexivity.
      * intros l Hl. apply sorted_nest; [apply range_sorted | |].
        -- intros c p Hc H. rewrite (su_res0 _ _ _ HS) in Hr. rewrite (su_comp0 _ _ _ HS), (su_comp1 _ _ _ HS) in Hc. apply in_range in Hr, Hc.
           apply (in_precincts T v g) in H; [| assumption | assumption | lia | lia]. destruct H as (k & -> & _). reflexivity.
        -- intros c _. unfold precincts. destruct (_ <=? _); [constructor |]. apply sorted_nest; [apply range_sorted | |].
           ++ intros k p _ [<- | []]. reflexivity.
           ++ intros. apply one_sorted.
  - destruct HO as [OX OY]. destruct (all_step T v g true HW HS OX) as [SX DX]. destruct (all_step T v g false HW HS OY) as [SY DY].
    cbv zeta in *. cbn iota in *.
    assert (P : forall r u w c p, In r (range (res0 g) (res1 g)) -> In w (positions (all_dy g) (ty0 g) (ty1 g)) ->
      In u (positions (all_dx g) (tx0 g) (tx1 g)) -> In c (range (comp0 g) (comp1 g)) ->
      In p (if numres (comp_at g c) <=? r then [] else at_point g fits64 r u w c) ->
      exists l k, p = (l, r, c, k) /\ px T c r k = u /\ py T c r k = w).
    { intros r u w c p Hr Hw Hu Hc H. rewrite (su_res0 _ _ _ HS) in Hr. rewrite (su_comp0 _ _ _ HS), (su_comp1 _ _ _ HS) in Hc. apply in_range in Hr, Hc.
      rewrite (su_x0 _ _ _ HS), (su_x1 _ _ _ HS) in Hu. rewrite (su_y0 _ _ _ HS), (su_y1 _ _ _ HS) in Hw.
      apply in_positions in Hw; [| lia]. apply in_positions in Hu; [| lia].
      rewrite (comp_at_spec T v g c HS) in H by lia. rewrite numres_make in H.
      destruct (Z.leb_spec (nres (par T c)) r) as [E | E]; [destruct H |].
      assert (HR : resolution T c r) by (split; lia).
      apply (in_at_point T v g) in H; try assumption; try tauto; [| apply (fits64_true T v g); assumption].
      destruct H as (l & k & -> & _ & _ & H). exists l, k. split; [reflexivity | exact H]. }
    unfold rpcl_visits. apply sorted_nest; [apply range_sorted | |].
    + intros r p Hr H. apply in_flat_map in H. destruct H as (w & Hw & H). apply in_flat_map in H. destruct H as (u & Hu & H).
      apply in_flat_map in H. destruct H as (c & Hc & H). destruct (P r u w c p Hr Hw Hu Hc H) as (l & k & -> & _). reflexivity.
    + intros r Hr. apply sorted_nest; [apply positions_sorted; lia | |].
      * intros w p Hw H. apply in_flat_map in H. destruct H as (u & Hu & H).
        apply in_flat_map in H. destruct H as (c & Hc & H). destruct (P r u w c p Hr Hw Hu Hc H) as (l & k & -> & _ & E).
        cbn [key nth_error]. rewrite E. reflexivity.
      * intros w Hw. apply sorted_nest; [apply positions_sorted; lia | |].
        -- intros u p Hu H. apply in_flat_map in H. destruct H as (c & Hc & H).
           destruct (P r u w c p Hr Hw Hu Hc H) as (l & k & -> & E & _). cbn [key nth_error]. rewrite E. reflexivity.
        -- intros u Hu. apply sorted_nest; [apply range_sorted | |].
           ++ intros c p Hc H. destruct (P r u w c p Hr Hw Hu Hc H) as (l & k & -> & _). reflexivity.
           ++ intros c Hc. destruct (_ <=? _); [constructor |]. eapply at_point_sorted; [exact HS | reflexivity].
  - destruct HO as (OX & OY & ON). destruct (all_step T v g true HW HS OX) as [SX DX]. destruct (all_step T v g false HW HS OY) as [SY DY].
    cbv zeta in *. cbn iota in *.
    assert (P : forall r u w c p, In c (range (comp0 g) (comp1 g)) -> In r (range (res0 g) (Z.min (res1 g) (numres (comp_at g c)))) ->
      In w (positions (all_dy g) (ty0 g) (ty1 g)) -> In u (positions (all_dx g) (tx0 g) (tx1 g)) ->
      In p (at_point g fits32 r u w c) ->
      exists l k, p = (l, r, c, k) /\ px T c r k = u /\ py T c r k = w).
    { intros r u w c p Hc Hr Hw Hu H. rewrite (su_comp0 _ _ _ HS), (su_comp1 _ _ _ HS) in Hc. apply in_range in Hc.
      rewrite (comp_at_spec T v g c HS) in Hr by lia. rewrite numres_make in Hr. rewrite (su_res0 _ _ _ HS) in Hr. apply in_range in Hr.
      rewrite (su_x0 _ _ _ HS), (su_x1 _ _ _ HS) in Hu. rewrite (su_y0 _ _ _ HS), (su_y1 _ _ _ HS) in Hw.
      apply in_positions in Hw; [| lia]. apply in_positions in Hu; [| lia].
      assert (HR : resolution T c r) by (split; lia).
      apply (in_at_point T v g) in H; try assumption; try tauto; [| apply (fits32_true T v g); assumption].
      destruct H as (l & k & -> & _ & _ & H). exists l, k. split; [reflexivity | exact H]. }
    unfold pcrl_visits. apply sorted_nest; [apply positions_sorted; lia | |].
    + intros w p Hw H. apply in_flat_map in H. destruct H as (u & Hu & H). apply in_flat_map in H. destruct H as (c & Hc & H).
      apply in_flat_map in H. destruct H as (r & Hr & H). destruct (P r u w c p Hc Hr Hw Hu H) as (l & k & -> & _ & E).
      cbn [key nth_error]. rewrite E. reflexivity.
    + intros w Hw. apply sorted_nest; [apply positions_sorted; lia | |].
      * intros u p Hu H. apply in_flat_map in H. destruct H as (c & Hc & H).
        apply in_flat_map in H. destruct H as (r & Hr & H). destruct (P r u w c p Hc Hr Hw Hu H) as (l & k & -> & E & _).
        cbn [key nth_error]. rewrite E. reflexivity.
      * intros u Hu. apply sorted_nest; [apply range_sorted | |].
        -- intros c p Hc H. apply in_flat_map in H. destruct H as (r & Hr & H).
           destruct (P r u w c p Hc Hr Hw Hu H) as (l & k & -> & _). reflexivity.
        -- intros c Hc. apply sorted_nest; [apply range_sorted | |].
           ++ intros r p Hr H. destruct (P r u w c p Hc Hr Hw Hu H) as (l & k & -> & _). reflexivity.
           ++ intros r Hr. eapply at_point_sorted; [exact HS | reflexivity].
  - assert (P : forall r u w c p, In c (range (comp0 g) (comp1 g)) -> In r (range (res0 g) (Z.min (res1 g) (numres (comp_at g c)))) ->
      In w (positions (comp_dy 0 (comp_at g c)) (ty0 g) (ty1 g)) -> In u (positions (comp_dx 0 (comp_at g c)) (tx0 g) (tx1 g)) ->
      In p (at_point g fits32 r u w c) ->
      exists l k, p = (l, r, c, k) /\ px T c r k = u /\ py T c r k = w).
    { intros r u w c p Hc Hr Hw Hu H. rewrite (su_comp0 _ _ _ HS), (su_comp1 _ _ _ HS) in Hc. apply in_range in Hc.
      destruct (comp_step T v g c true HW HS HO ltac:(lia)) as [SX DX]. destruct (comp_step T v g c false HW HS HO ltac:(lia)) as [SY DY].
      cbv zeta in *. cbn iota in *.
      rewrite (comp_at_spec T v g c HS) in Hr by lia. rewrite numres_make in Hr. rewrite (su_res0 _ _ _ HS) in Hr. apply in_range in Hr.
      rewrite (su_x0 _ _ _ HS), (su_x1 _ _ _ HS) in Hu. rewrite (su_y0 _ _ _ HS), (su_y1 _ _ _ HS) in Hw.
      apply in_positions in Hw; [| lia]. apply in_positions in Hu; [| lia].
      assert (HR : resolution T c r) by (split; lia).
      apply (in_at_point T v g) in H; try assumption; try tauto; [| apply (fits32_true T v g); assumption].
      destruct H as (l & k & -> & _ & _ & H). exists l, k. split; [reflexivity | exact H]. }
    unfold cprl_visits. apply sorted_nest; [apply range_sorted | |].
    + intros c p Hc H. apply in_flat_map in H. destruct H as (w & Hw & H). apply in_flat_map in H. destruct H as (u & Hu & H).
      apply in_flat_map in H. destruct H as (r & Hr & H). destruct (P r u w c p Hc Hr Hw Hu H) as (l & k & -> & _). reflexivity.
    + intros c Hc.
      assert (SXY : 0 < comp_dx 0 (comp_at g c) /\ 0 < comp_dy 0 (comp_at g c)).
      { rewrite (su_comp0 _ _ _ HS), (su_comp1 _ _ _ HS) in Hc. apply in_range in Hc.
        destruct (comp_step T v g c true HW HS HO ltac:(lia)) as [SX _]. destruct (comp_step T v g c false HW HS HO ltac:(lia)) as [SY _].
        cbv zeta in *. cbn iota in *. lia. }
      apply sorted_nest; [apply positions_sorted; lia | |].
      * intros w p Hw H. apply in_flat_map in H. destruct H as (u & Hu & H).
        apply in_flat_map in H. destruct H as (r & Hr & H). destruct (P r u w c p Hc Hr Hw Hu H) as (l & k & -> & _ & E).
        cbn [key nth_error]. rewrite E. reflexivity.
      * intros w Hw. apply sorted_nest; [apply positions_sorted; lia | |].
        -- intros u p Hu H. apply in_flat_map in H. destruct H as (r & Hr & H).
           destruct (P r u w c p Hc Hr Hw Hu H) as (l & k & -> & E & _). cbn [key nth_error]. rewrite E. reflexivity.
        -- intros u Hu. apply sorted_nest; [apply range_sorted | |].
           ++ intros r p Hr H. destruct (P r u w c p Hc Hr Hw Hu H) as (l & k & -> & _). reflexivity.
           ++ intros r Hr. eapply at_point_sorted; [exact HS | reflexivity].
Qed.

Lemma lexlt_irrefl : forall a, ~ lexlt a a.
Proof. induction a as [| x a IH]; cbn; [tauto |]. intros [H | [_ H]]; [lia | tauto]. Qed.

Lemma ordered_NoDup : forall T o l, ordered T o l -> NoDup l.
Proof.
  intros T o. induction l as [| p l IH]; intros H; constructor; apply StronglySorted_inv in H; destruct H as [H1 H2].
  - intros Hp. rewrite Forall_forall in H2. exact (lexlt_irrefl _ (H2 p Hp)).
  - apply IH. exact H1.
Qed.

(** ** Marking *)

Lemma sift_spec : forall T v g vs m, suits T v g -> NoDup vs -> Forall (valid T) vs ->
  fst (sift g m vs) = filter (fun q => m (index_of g q) =? 0) vs /\
  forall q, valid T q -> snd (sift g m vs) (index_of g q) = 0 <-> m (index_of g q) = 0 /\ ~ In q vs.
Proof.
  intros T v g vs m HS. revert m. induction vs as [| p vs IH]; intros m HN HV; cbn [sift filter].
  - split; [reflexivity |]. intros q _. cbn. tauto.
  - inversion HN as [| p' vs' Hp HN']; subst p' vs'. inversion HV as [| p' vs' Vp HV']; subst p' vs'.
    destruct (Z.eqb_spec (m (index_of g p)) 0) as [E | E].
    + destruct (IH (upd m (index_of g p) 1) HN' HV') as [I1 I2].
      destruct (sift g (upd m (index_of g p) 1) vs) as [e m'] eqn:S. cbn [fst snd] in *. split.
      * f_equal. rewrite I1. apply filter_ext_in. intros q Hq. rewrite Forall_forall in HV'.
        rewrite upd_other; [reflexivity |]. intros X. apply Hp. rewrite <- (su_inj _ _ _ HS q p (HV' q Hq) Vp X). exact Hq.
      * intros q Vq. rewrite (I2 q Vq). cbn [In]. unfold upd. destruct (Z.eqb_spec (index_of g q) (index_of g p)) as [X | X].
        -- pose proof (su_inj _ _ _ HS q p Vq Vp X). subst q. split; [intros [H _]; discriminate | tauto].
        -- assert (p <> q) by (intros ->; apply X; reflexivity). tauto.
    + destruct (IH m HN' HV') as [I1 I2]. split; [exact I1 |]. intros q Vq. rewrite (I2 q Vq). cbn [In].
      split; [intros [H1 H2]; split; [exact H1 |]; intros [-> | H3]; tauto | tauto].
Qed.

Lemma sorted_filter : forall {A} (R : A -> A -> Prop) f l, StronglySorted R l -> StronglySorted R (filter f l).
Proof.
  intros A R f. induction l as [| a l IH]; intros H; cbn [filter]; [constructor |].
  apply StronglySorted_inv in H. destruct H as [H1 H2]. destruct (f a); [| apply IH; exact H1].
  constructor; [apply IH; exact H1 |]. rewrite Forall_forall in *. intros x Hx. apply filter_In in Hx. apply H2. tauto.
Qed.
