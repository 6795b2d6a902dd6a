(** The five progressions as nested loops. *)

From Coq Require Import ZArith List Bool Lia.
From Verif Require Import Ints Mem PiModel PiRun.
Import ListNotations.
Local Open Scope Z_scope.

Definition bounded (g : cfg) : Prop :=
  0 <= lay0 g /\ lay1 g < 2 ^ 32 /\ 0 <= res0 g /\ res1 g < 2 ^ 32 /\ 0 <= comp0 g /\ comp1 g < 2 ^ 32 /\ 0 <= prec0 g.

Ltac lab := cbn [lrcp rlcp rpcl pcrl cprl lay rs cp pr x y incl].
Ltac hop t := eapply does_goto; [lab; t; reflexivity | reflexivity |].
Ltac stay t := apply does_step; [lab; t; reflexivity | reflexivity].
Ltac yes := rewrite (proj2 (Z.ltb_lt _ _)) by lia.
Ltac no := rewrite (proj2 (Z.ltb_ge _ _)) by lia.
Ltac on := rewrite (proj2 (Z.leb_gt _ _)) by lia.

(** ** By layer and by resolution *)

Definition precincts (g : cfg) (l r c : Z) : list packet :=
  let q := res_of (comp_at g c) r in
  if numres (comp_at g c) <=? r then []
  else flat_map (fun p => [(l, r, c, p)]) (range (prec0 g) (u32 (pw q * ph q))).

Definition lrcp_visits (g : cfg) : list packet :=
  flat_map (fun l => flat_map (fun r => flat_map (fun c => precincts g l r c)
    (range (comp0 g) (comp1 g))) (range (res0 g) (res1 g))) (range (lay0 g) (lay1 g)).
Definition rlcp_visits (g : cfg) : list packet :=
  flat_map (fun r => flat_map (fun l => flat_map (fun c => precincts g l r c)
    (range (comp0 g) (comp1 g))) (range (lay0 g) (lay1 g))) (range (res0 g) (res1 g)).

Definition indexed (g : cfg) : Prop := forall l r c p,
  lay0 g <= l < lay1 g -> res0 g <= r < res1 g -> comp0 g <= c < comp1 g -> r < numres (comp_at g c) ->
  let q := res_of (comp_at g c) r in
  prec0 g <= p < u32 (pw q * ph q) -> index g l r c p < include_size g.

Lemma lrcp_does : forall g r0 c0 p0 x0 y0 m0, bounded g -> indexed g ->
  exists s, does g (lrcp g) SA (SO, mkSt (lay0 g) r0 c0 p0 x0 y0 m0) (lrcp_visits g) (SO, s) /\ lrcp g SO s = Stop s.
Proof.
  intros g r0 c0 p0 x0 y0 m0 (B1 & B2 & B3 & B4 & B5 & B6 & B7) HI.
  pose (A1 := fun (v : Z) (a : seq_label * st) => exists r c p u w m, a = (SO, mkSt v r c p u w m)).
  destruct (does_loop g (lrcp g) SA A1 inc
    (fun l => flat_map (fun r => flat_map (fun c => precincts g l r c) (range (comp0 g) (comp1 g))) (range (res0 g) (res1 g)))
    (range (lay0 g) (lay1 g)) (lay0 g) (Z.max (lay0 g) (lay1 g)) (SO, mkSt (lay0 g) r0 c0 p0 x0 y0 m0))
    as (b & D & (r1 & c1 & p1 & x1 & y1 & m1 & ->)).
  - apply chain_range; assumption.
  - intros l a Hl (r & c & p & u & w & m & ->). apply in_range in Hl.
    pose (A2 := fun (v : Z) (a : seq_label * st) => exists c p u w m, a = (SM, mkSt l v c p u w m)).
    destruct (does_loop g (lrcp g) SA A2 inc
      (fun r => flat_map (fun c => precincts g l r c) (range (comp0 g) (comp1 g)))
      (range (res0 g) (res1 g)) (res0 g) (Z.max (res0 g) (res1 g)) (SM, mkSt l (res0 g) c p u w m))
      as (b & D & (c1 & p1 & x1 & y1 & m1 & ->)).
    + apply chain_range; assumption.
    + clear r c p u w m. intros r a Hr (c & p & u & w & m & ->). apply in_range in Hr.
      pose (A3 := fun (v : Z) (a : seq_label * st) => exists p u w m, a = (SC, mkSt l r v p u w m)).
      destruct (does_loop g (lrcp g) SA A3 inc (fun c => precincts g l r c)
        (range (comp0 g) (comp1 g)) (comp0 g) (Z.max (comp0 g) (comp1 g)) (SC, mkSt l r (comp0 g) p u w m))
        as (b & D & (p1 & x1 & y1 & m1 & ->)).
      * apply chain_range; assumption.
      * clear c p u w m. intros c a Hc (p & u & w & m & ->). apply in_range in Hc. unfold precincts. cbv zeta.
        destruct (numres (comp_at g c) <=? r) eqn:E.
        -- exists (SC, mkSt l r (inc c) p u w m). split; [| exists p, u, w, m; reflexivity].
           hop ltac:(yes; rewrite E). stay idtac.
        -- apply Z.leb_gt in E.
           pose (A4 := fun (v : Z) (a : seq_label * st) => exists u w m, a = (SP, mkSt l r c v u w m)).
           set (q := res_of (comp_at g c) r). set (N := u32 (pw q * ph q)).
           assert (HN : 0 <= N < 2 ^ 32) by apply u32_range.
           destruct (does_loop g (lrcp g) SA A4 inc (fun p => [(l, r, c, p)])
             (range (prec0 g) N) (prec0 g) (Z.max (prec0 g) N) (SP, mkSt l r c (prec0 g) u w m))
             as (b & D & (x1 & y1 & m1 & ->)).
           ++ apply chain_range; lia.
           ++ clear p u w m. intros p a Hp (u & w & m & ->). apply in_range in Hp.
              destruct (does_probe g (lrcp g) SA SP l r c p u w m) as (m1 & D).
              { cbn [lrcp lay rs cp pr x y incl]. fold q. fold N. rewrite (proj2 (Z.ltb_lt _ _)) by lia. reflexivity. }
              { apply HI; try assumption. }
              exists (SP, mkSt l r c (inc p) u w m1). split; [| exists u, w, m1; reflexivity].
              change [(l, r, c, p)] with ([(l, r, c, p)] ++ []). eapply does_app; [exact D |]. stay idtac.
           ++ exists u, w, m. reflexivity.
           ++ exists (SC, mkSt l r (inc c) (Z.max (prec0 g) N) x1 y1 m1). split; [| exists (Z.max (prec0 g) N), x1, y1, m1; reflexivity].
              hop ltac:(yes; on).
              rewrite <- app_nil_r at 1. eapply does_app; [exact D |].
              hop ltac:(fold q; fold N; no). stay idtac.
      * exists p, u, w, m. reflexivity.
      * exists (SM, mkSt l (inc r) (Z.max (comp0 g) (comp1 g)) p1 x1 y1 m1). split; [| do 5 eexists; reflexivity].
        hop ltac:(yes).
        rewrite <- app_nil_r at 1. eapply does_app; [exact D |].
        stay ltac:(no).
    + do 5 eexists; reflexivity.
    + exists (SO, mkSt (inc l) (Z.max (res0 g) (res1 g)) c1 p1 x1 y1 m1). split; [| do 6 eexists; reflexivity].
      hop ltac:(on).
      rewrite <- app_nil_r at 1. eapply does_app; [exact D |].
      stay ltac:(no).
  - do 6 eexists; reflexivity.
  - eexists. split; [exact D |]. cbn [lrcp lay]. rewrite (proj2 (Z.leb_le _ _)) by lia. reflexivity.
Qed.

Lemma rlcp_does : forall g l0 c0 p0 x0 y0 m0, bounded g -> indexed g ->
  exists s, does g (rlcp g) SA (SO, mkSt l0 (res0 g) c0 p0 x0 y0 m0) (rlcp_visits g) (SO, s) /\ rlcp g SO s = Stop s.
Proof.
  intros g l0 c0 p0 x0 y0 m0 (B1 & B2 & B3 & B4 & B5 & B6 & B7) HI.
  pose (A1 := fun (v : Z) (a : seq_label * st) => exists l c p u w m, a = (SO, mkSt l v c p u w m)).
  destruct (does_loop g (rlcp g) SA A1 inc
    (fun r => flat_map (fun l => flat_map (fun c => precincts g l r c) (range (comp0 g) (comp1 g))) (range (lay0 g) (lay1 g)))
    (range (res0 g) (res1 g)) (res0 g) (Z.max (res0 g) (res1 g)) (SO, mkSt l0 (res0 g) c0 p0 x0 y0 m0))
    as (b & D & (l1 & c1 & p1 & x1 & y1 & m1 & ->)).
  - apply chain_range; assumption.
  - intros r a Hr (l & c & p & u & w & m & ->). apply in_range in Hr.
    pose (A2 := fun (v : Z) (a : seq_label * st) => exists c p u w m, a = (SM, mkSt v r c p u w m)).
    destruct (does_loop g (rlcp g) SA A2 inc
      (fun l => flat_map (fun c => precincts g l r c) (range (comp0 g) (comp1 g)))
      (range (lay0 g) (lay1 g)) (lay0 g) (Z.max (lay0 g) (lay1 g)) (SM, mkSt (lay0 g) r c p u w m))
      as (b & D & (c1 & p1 & x1 & y1 & m1 & ->)).
    + apply chain_range; assumption.
    + clear l c p u w m. intros l a Hl (c & p & u & w & m & ->). apply in_range in Hl.
      pose (A3 := fun (v : Z) (a : seq_label * st) => exists p u w m, a = (SC, mkSt l r v p u w m)).
      destruct (does_loop g (rlcp g) SA A3 inc (fun c => precincts g l r c)
        (range (comp0 g) (comp1 g)) (comp0 g) (Z.max (comp0 g) (comp1 g)) (SC, mkSt l r (comp0 g) p u w m))
        as (b & D & (p1 & x1 & y1 & m1 & ->)).
      * apply chain_range; assumption.
      * clear c p u w m. intros c a Hc (p & u & w & m & ->). apply in_range in Hc. unfold precincts. cbv zeta.
        destruct (numres (comp_at g c) <=? r) eqn:E.
        -- exists (SC, mkSt l r (inc c) p u w m). split; [| exists p, u, w, m; reflexivity].
           hop ltac:(yes; rewrite E). stay idtac.
        -- apply Z.leb_gt in E.
           pose (A4 := fun (v : Z) (a : seq_label * st) => exists u w m, a = (SP, mkSt l r c v u w m)).
           set (q := res_of (comp_at g c) r). set (N := u32 (pw q * ph q)).
           assert (HN : 0 <= N < 2 ^ 32) by apply u32_range.
           destruct (does_loop g (rlcp g) SA A4 inc (fun p => [(l, r, c, p)])
             (range (prec0 g) N) (prec0 g) (Z.max (prec0 g) N) (SP, mkSt l r c (prec0 g) u w m))
             as (b & D & (x1 & y1 & m1 & ->)).
           ++ apply chain_range; lia.
           ++ clear p u w m. intros p a Hp (u & w & m & ->). apply in_range in Hp.
              destruct (does_probe g (rlcp g) SA SP l r c p u w m) as (m1 & D).
              { cbn [rlcp lay rs cp pr x y incl]. fold q. fold N. rewrite (proj2 (Z.ltb_lt _ _)) by lia. reflexivity. }
              { apply HI; try assumption. }
              exists (SP, mkSt l r c (inc p) u w m1). split; [| exists u, w, m1; reflexivity].
              change [(l, r, c, p)] with ([(l, r, c, p)] ++ []). eapply does_app; [exact D |]. stay idtac.
           ++ exists u, w, m. reflexivity.
           ++ exists (SC, mkSt l r (inc c) (Z.max (prec0 g) N) x1 y1 m1). split; [| exists (Z.max (prec0 g) N), x1, y1, m1; reflexivity].
              hop ltac:(yes; on).
              rewrite <- app_nil_r at 1. eapply does_app; [exact D |].
              hop ltac:(fold q; fold N; no). stay idtac.
      * exists p, u, w, m. reflexivity.
      * exists (SM, mkSt (inc l) r (Z.max (comp0 g) (comp1 g)) p1 x1 y1 m1). split; [| do 5 eexists; reflexivity].
        hop ltac:(yes).
        rewrite <- app_nil_r at 1. eapply does_app; [exact D |].
        stay ltac:(no).
    + do 5 eexists; reflexivity.
    + exists (SO, mkSt (Z.max (lay0 g) (lay1 g)) (inc r) c1 p1 x1 y1 m1). split; [| do 6 eexists; reflexivity].
      hop ltac:(on).
      rewrite <- app_nil_r at 1. eapply does_app; [exact D |].
      stay ltac:(no).
  - do 6 eexists; reflexivity.
  - eexists. split; [exact D |]. cbn [rlcp rs]. rewrite (proj2 (Z.leb_le _ _)) by lia. reflexivity.
Qed.

(** ** By position *)

(** The packets of the precinct starting at ([px], [py]). *)
Definition at_point (g : cfg) (fits : comp -> Z -> bool) (r px py c : Z) : list packet :=
  if negb (fits (comp_at g c) r) then []
  else match precinct_here g (comp_at g c) r px py with
       | None => []
       | Some k => flat_map (fun l => [(l, r, c, k)]) (range (lay0 g) (lay1 g))
       end.

Definition rpcl_visits (g : cfg) : list packet :=
  flat_map (fun r => flat_map (fun v => flat_map (fun u => flat_map (fun c =>
    if numres (comp_at g c) <=? r then [] else at_point g fits64 r u v c)
    (range (comp0 g) (comp1 g))) (positions (all_dx g) (tx0 g) (tx1 g)))
    (positions (all_dy g) (ty0 g) (ty1 g))) (range (res0 g) (res1 g)).
Definition pcrl_visits (g : cfg) : list packet :=
  flat_map (fun v => flat_map (fun u => flat_map (fun c => flat_map (fun r => at_point g fits32 r u v c)
    (range (res0 g) (Z.min (res1 g) (numres (comp_at g c))))) (range (comp0 g) (comp1 g)))
    (positions (all_dx g) (tx0 g) (tx1 g))) (positions (all_dy g) (ty0 g) (ty1 g)).
Definition cprl_visits (g : cfg) : list packet :=
  flat_map (fun c => flat_map (fun v => flat_map (fun u => flat_map (fun r => at_point g fits32 r u v c)
    (range (res0 g) (Z.min (res1 g) (numres (comp_at g c)))))
    (positions (comp_dx 0 (comp_at g c)) (tx0 g) (tx1 g)))
    (positions (comp_dy 0 (comp_at g c)) (ty0 g) (ty1 g))) (range (comp0 g) (comp1 g)).

Definition indexed_at (g : cfg) : Prop := forall l r c u v k,
  lay0 g <= l < lay1 g -> res0 g <= r < res1 g -> comp0 g <= c < comp1 g -> r < numres (comp_at g c) ->
  tx0 g <= u < tx1 g -> ty0 g <= v < ty1 g ->
  precinct_here g (comp_at g c) r u v = Some k -> index g l r c k < include_size g.

Definition placed (g : cfg) : Prop :=
  0 <= tx0 g < 2 ^ 32 /\ 0 <= ty0 g < 2 ^ 32 /\ tx1 g < 2 ^ 31 /\ ty1 g < 2 ^ 31.

Lemma layers_does : forall g step r c k u w m,
  (forall s, step PA s = Goto PB (mkSt (inc (lay s)) (rs s) (cp s) (pr s) (x s) (y s) (incl s))) ->
  (forall s, step PB s = if lay s <? lay1 g then probe g PA s else Goto PK s) ->
  bounded g -> (forall l, lay0 g <= l < lay1 g -> index g l r c k < include_size g) ->
  exists l1 m1, does g step PA (PB, mkSt (lay0 g) r c k u w m) (flat_map (fun l => [(l, r, c, k)]) (range (lay0 g) (lay1 g)))
    (PK, mkSt l1 r c k u w m1).
Proof.
  intros g step r c k u w m HA HB (B1 & B2 & _) HI.
  pose (A := fun (v : Z) (a : pos_label * st) => exists m, a = (PB, mkSt v r c k u w m)).
  destruct (does_loop g step PA A inc (fun l => [(l, r, c, k)]) (range (lay0 g) (lay1 g)) (lay0 g)
    (Z.max (lay0 g) (lay1 g)) (PB, mkSt (lay0 g) r c k u w m)) as (b & D & (m1 & ->)).
  - apply chain_range; assumption.
  - intros l a Hl (m' & ->). apply in_range in Hl.
    destruct (does_probe g step PA PB l r c k u w m') as (m1 & D).
    { rewrite HB. cbn [lay]. yes. reflexivity. }
    { apply HI. exact Hl. }
    exists (PB, mkSt (inc l) r c k u w m1). split; [| exists m1; reflexivity].
    change [(l, r, c, k)] with ([(l, r, c, k)] ++ []). eapply does_app; [exact D |].
    apply does_step; [apply HA | reflexivity].
  - exists m. reflexivity.
  - exists (Z.max (lay0 g) (lay1 g)), m1. rewrite <- app_nil_r at 1. eapply does_app; [exact D |].
    apply does_step; [rewrite HB; cbn [lay]; no; reflexivity | reflexivity].
Qed.


Ltac enter A nxt v e a b D H := match goal with
  |- exists _, does ?g ?st ?ag _ (flat_map ?f ?l) _ /\ _ => destruct (does_loop g st ag A nxt f l v e a) as (b & D & H) end.
Ltac after D := rewrite <- app_nil_r at 1; eapply does_app; [exact D |].

Lemma rpcl_does : forall g l0 c0 p0 x0 y0 m0, bounded g -> indexed_at g -> placed g ->
  0 < all_dx g < 2 ^ 32 -> 0 < all_dy g < 2 ^ 32 ->
  exists s, does g (rpcl g) PA (PO, mkSt l0 (res0 g) c0 p0 x0 y0 m0) (rpcl_visits g) (PO, s) /\ rpcl g PO s = Stop s.
Proof.
  intros g l0 c0 p0 x0 y0 m0 HB HI (P1 & P2 & P3 & P4) HX HY. pose proof HB as (B1 & B2 & B3 & B4 & B5 & B6 & B7).
  destruct (chain_positions (all_dx g) (tx0 g) (tx1 g) HX P1 P3) as (ex & Ex & Cx).
  destruct (chain_positions (all_dy g) (ty0 g) (ty1 g) HY P2 P4) as (ey & Ey & Cy).
  pose (A1 := fun (v : Z) (a : pos_label * st) => exists l c p u w m, a = (PO, mkSt l v c p u w m)).
  unfold rpcl_visits.
  enter A1 inc (res0 g) (Z.max (res0 g) (res1 g)) (PO, mkSt l0 (res0 g) c0 p0 x0 y0 m0) b D H.
  - apply chain_range; assumption.
  - intros r a Hr (l & c & p & u & w & m & ->). apply in_range in Hr.
    pose (A2 := fun (v : Z) (a : pos_label * st) => exists l c p u m, a = (PY, mkSt l r c p u v m)).
    enter A2 (advance (all_dy g)) (ty0 g) ey (PY, mkSt l r c p u (ty0 g) m) b D H.
    + exact Cy.
    + clear l c p u w m. intros v a Hv (l & c & p & u & m & ->). apply in_positions in Hv; [| lia].
      pose (A3 := fun (u : Z) (a : pos_label * st) => exists l c p m, a = (PX, mkSt l r c p u v m)).
      enter A3 (advance (all_dx g)) (tx0 g) ex (PX, mkSt l r c p (tx0 g) v m) b D H.
      * exact Cx.
      * clear l c p u m. intros u a Hu (l & c & p & m & ->). apply in_positions in Hu; [| lia].
        pose (A4 := fun (c : Z) (a : pos_label * st) => exists l p m, a = (PT, mkSt l r c p u v m)).
        enter A4 inc (comp0 g) (Z.max (comp0 g) (comp1 g)) (PT, mkSt l r (comp0 g) p u v m) b D H.
        -- apply chain_range; assumption.
        -- clear l c p m. intros c a Hc (l & p & m & ->). apply in_range in Hc.
           destruct (Z.leb_spec (numres (comp_at g c)) r) as [E | E].
           { exists (PT, mkSt l r (inc c) p u v m). split; [| exists l, p, m; reflexivity].
             hop ltac:(yes; rewrite (proj2 (Z.leb_le _ _)) by lia). stay idtac. }
           unfold at_point. destruct (fits64 (comp_at g c) r) eqn:F; cbn [negb].
           2: { exists (PT, mkSt l r (inc c) p u v m). split; [| exists l, p, m; reflexivity].
                hop ltac:(yes; on; rewrite F; cbn [negb]). stay idtac. }
           destruct (precinct_here g (comp_at g c) r u v) as [k |] eqn:K.
           2: { exists (PT, mkSt l r (inc c) p u v m). split; [| exists l, p, m; reflexivity].
                hop ltac:(yes; on; rewrite F, K; cbn [negb]). stay idtac. }
           destruct (layers_does g (rpcl g) r c k u v m) as (l1 & m1 & D).
           { reflexivity. }
           { reflexivity. }
           { assumption. }
           { intros l' Hl'. apply (HI l' r c u v k); tauto || lia. }
           exists (PT, mkSt l1 r (inc c) k u v m1). split; [| exists l1, k, m1; reflexivity].
           hop ltac:(yes; on; rewrite F, K; cbn [negb]). after D. stay idtac.
        -- exists l, p, m. reflexivity.
        -- destruct H as (l1 & p1 & m1 & ->).
           exists (PX, mkSt l1 r (Z.max (comp0 g) (comp1 g)) p1 (advance (all_dx g) u) v m1). split; [| do 4 eexists; reflexivity].
           hop ltac:(yes). after D. stay ltac:(no).
      * do 4 eexists; reflexivity.
      * destruct H as (l1 & c1 & p1 & m1 & ->).
        exists (PY, mkSt l1 r c1 p1 ex (advance (all_dy g) v) m1). split; [| do 5 eexists; reflexivity].
        hop ltac:(yes). after D. stay ltac:(no).
    + do 5 eexists; reflexivity.
    + destruct H as (l1 & c1 & p1 & u1 & m1 & ->).
      exists (PO, mkSt l1 (inc r) c1 p1 u1 ey m1). split; [| do 6 eexists; reflexivity].
      hop ltac:(on). after D. stay ltac:(no).
  - do 6 eexists; reflexivity.
  - destruct H as (l1 & c1 & p1 & x1 & y1 & m1 & ->).
    eexists. split; [exact D |]. cbn [rpcl rs]. rewrite (proj2 (Z.leb_le _ _)) by lia. reflexivity.
Qed.

Lemma pcrl_does : forall g l0 r0 c0 p0 x0 m0, bounded g -> indexed_at g -> placed g ->
  0 < all_dx g < 2 ^ 32 -> 0 < all_dy g < 2 ^ 32 ->
  exists s, does g (pcrl g) PA (PY, mkSt l0 r0 c0 p0 x0 (ty0 g) m0) (pcrl_visits g) (PY, s) /\ pcrl g PY s = Stop s.
Proof.
  intros g l0 r0 c0 p0 x0 m0 HB HI (P1 & P2 & P3 & P4) HX HY. pose proof HB as (B1 & B2 & B3 & B4 & B5 & B6 & B7).
  destruct (chain_positions (all_dx g) (tx0 g) (tx1 g) HX P1 P3) as (ex & Ex & Cx).
  destruct (chain_positions (all_dy g) (ty0 g) (ty1 g) HY P2 P4) as (ey & Ey & Cy).
  pose (A1 := fun (v : Z) (a : pos_label * st) => exists l r c p u m, a = (PY, mkSt l r c p u v m)).
  unfold pcrl_visits.
  enter A1 (advance (all_dy g)) (ty0 g) ey (PY, mkSt l0 r0 c0 p0 x0 (ty0 g) m0) b D H.
  - exact Cy.
  - intros v a Hv (l & r & c & p & u & m & ->). apply in_positions in Hv; [| lia].
    pose (A2 := fun (u : Z) (a : pos_label * st) => exists l r c p m, a = (PX, mkSt l r c p u v m)).
    enter A2 (advance (all_dx g)) (tx0 g) ex (PX, mkSt l r c p (tx0 g) v m) b D H.
    + exact Cx.
    + clear l r c p u m. intros u a Hu (l & r & c & p & m & ->). apply in_positions in Hu; [| lia].
      pose (A3 := fun (c : Z) (a : pos_label * st) => exists l r p m, a = (PC, mkSt l r c p u v m)).
      enter A3 inc (comp0 g) (Z.max (comp0 g) (comp1 g)) (PC, mkSt l r (comp0 g) p u v m) b D H.
      * apply chain_range; assumption.
      * clear l r c p m. intros c a Hc (l & r & p & m & ->). apply in_range in Hc.
        pose (A4 := fun (r : Z) (a : pos_label * st) => exists l p m, a = (PT, mkSt l r c p u v m)).
        set (N := Z.min (res1 g) (numres (comp_at g c))).
        enter A4 inc (res0 g) (Z.max (res0 g) N) (PT, mkSt l (res0 g) c p u v m) b D H.
        -- apply chain_range; [assumption |]. subst N; lia.
        -- clear l r p m. intros r a Hr (l & p & m & ->). apply in_range in Hr.
           unfold at_point. destruct (fits32 (comp_at g c) r) eqn:F; cbn [negb].
           2: { exists (PT, mkSt l (inc r) c p u v m). split; [| exists l, p, m; reflexivity].
                hop ltac:(fold N; yes; rewrite F; cbn [negb]). stay idtac. }
           destruct (precinct_here g (comp_at g c) r u v) as [k |] eqn:K.
           2: { exists (PT, mkSt l (inc r) c p u v m). split; [| exists l, p, m; reflexivity].
                hop ltac:(fold N; yes; rewrite F, K; cbn [negb]). stay idtac. }
           destruct (layers_does g (pcrl g) r c k u v m) as (l1 & m1 & D).
           { reflexivity. }
           { reflexivity. }
           { assumption. }
           { intros l' Hl'. apply (HI l' r c u v k); tauto || (subst N; lia). }
           exists (PT, mkSt l1 (inc r) c k u v m1). split; [| exists l1, k, m1; reflexivity].
           hop ltac:(fold N; yes; rewrite F, K; cbn [negb]). after D. stay idtac.
        -- exists l, p, m. reflexivity.
        -- destruct H as (l1 & p1 & m1 & ->).
           exists (PC, mkSt l1 (Z.max (res0 g) N) (inc c) p1 u v m1). split; [| do 4 eexists; reflexivity].
           hop ltac:(yes). after D. stay ltac:(fold N; no).
      * do 4 eexists; reflexivity.
      * destruct H as (l1 & r1 & p1 & m1 & ->).
        exists (PX, mkSt l1 r1 (Z.max (comp0 g) (comp1 g)) p1 (advance (all_dx g) u) v m1). split; [| do 5 eexists; reflexivity].
        hop ltac:(yes). after D. stay ltac:(no).
    + do 5 eexists; reflexivity.
    + destruct H as (l1 & r1 & c1 & p1 & m1 & ->).
      exists (PY, mkSt l1 r1 c1 p1 ex (advance (all_dy g) v) m1). split; [| do 6 eexists; reflexivity].
      hop ltac:(on). after D. stay ltac:(no).
  - do 6 eexists; reflexivity.
  - destruct H as (l1 & r1 & c1 & p1 & x1 & m1 & ->).
    eexists. split; [exact D |]. cbn [pcrl y]. rewrite (proj2 (Z.leb_le _ _)) by lia. reflexivity.
Qed.

Lemma cprl_does : forall g l0 r0 p0 x0 y0 m0, bounded g -> indexed_at g -> placed g ->
  (forall c, comp0 g <= c < comp1 g -> 0 < comp_dx 0 (comp_at g c) < 2 ^ 32 /\ 0 < comp_dy 0 (comp_at g c) < 2 ^ 32) ->
  exists s, does g (cprl g) PA (PO, mkSt l0 r0 (comp0 g) p0 x0 y0 m0) (cprl_visits g) (PO, s) /\ cprl g PO s = Stop s.
Proof.
  intros g l0 r0 p0 x0 y0 m0 HB HI (P1 & P2 & P3 & P4) HXY. pose proof HB as (B1 & B2 & B3 & B4 & B5 & B6 & B7).
  pose (A1 := fun (c : Z) (a : pos_label * st) => exists l r p u v m, a = (PO, mkSt l r c p u v m)).
  unfold cprl_visits.
  enter A1 inc (comp0 g) (Z.max (comp0 g) (comp1 g)) (PO, mkSt l0 r0 (comp0 g) p0 x0 y0 m0) b D H.
  - apply chain_range; assumption.
  - intros c a Hc (l & r & p & u & v & m & ->). apply in_range in Hc. destruct (HXY c Hc) as [HX HY].
    destruct (chain_positions (comp_dx 0 (comp_at g c)) (tx0 g) (tx1 g) HX P1 P3) as (ex & Ex & Cx).
    destruct (chain_positions (comp_dy 0 (comp_at g c)) (ty0 g) (ty1 g) HY P2 P4) as (ey & Ey & Cy).
    pose (A2 := fun (v : Z) (a : pos_label * st) => exists l r p u m, a = (PY, mkSt l r c p u v m)).
    enter A2 (advance (comp_dy 0 (comp_at g c))) (ty0 g) ey (PY, mkSt l r c p u (ty0 g) m) b D H.
    + exact Cy.
    + clear l r p u v m. intros v a Hv (l & r & p & u & m & ->). apply in_positions in Hv; [| lia].
      pose (A3 := fun (u : Z) (a : pos_label * st) => exists l r p m, a = (PX, mkSt l r c p u v m)).
      enter A3 (advance (comp_dx 0 (comp_at g c))) (tx0 g) ex (PX, mkSt l r c p (tx0 g) v m) b D H.
      * exact Cx.
      * clear l r p u m. intros u a Hu (l & r & p & m & ->). apply in_positions in Hu; [| lia].
        pose (A4 := fun (r : Z) (a : pos_label * st) => exists l p m, a = (PT, mkSt l r c p u v m)).
        set (N := Z.min (res1 g) (numres (comp_at g c))).
        enter A4 inc (res0 g) (Z.max (res0 g) N) (PT, mkSt l (res0 g) c p u v m) b D H.
        -- apply chain_range; [assumption |]. subst N; lia.
        -- clear l r p m. intros r a Hr (l & p & m & ->). apply in_range in Hr.
           unfold at_point. destruct (fits32 (comp_at g c) r) eqn:F; cbn [negb].
           2: { exists (PT, mkSt l (inc r) c p u v m). split; [| exists l, p, m; reflexivity].
                hop ltac:(fold N; yes; rewrite F; cbn [negb]). stay idtac. }
           destruct (precinct_here g (comp_at g c) r u v) as [k |] eqn:K.
           2: { exists (PT, mkSt l (inc r) c p u v m). split; [| exists l, p, m; reflexivity].
                hop ltac:(fold N; yes; rewrite F, K; cbn [negb]). stay idtac. }
           destruct (layers_does g (cprl g) r c k u v m) as (l1 & m1 & D).
           { reflexivity. }
           { reflexivity. }
           { assumption. }
           { intros l' Hl'. apply (HI l' r c u v k); tauto || (subst N; lia). }
           exists (PT, mkSt l1 (inc r) c k u v m1). split; [| exists l1, k, m1; reflexivity].
           hop ltac:(fold N; yes; rewrite F, K; cbn [negb]). after D. stay idtac.
        -- exists l, p, m. reflexivity.
        -- destruct H as (l1 & p1 & m1 & ->).
           exists (PX, mkSt l1 (Z.max (res0 g) N) c p1 (advance (comp_dx 0 (comp_at g c)) u) v m1). split; [| do 4 eexists; reflexivity].
           hop ltac:(yes). after D. stay ltac:(fold N; no).
      * do 4 eexists; reflexivity.
      * destruct H as (l1 & r1 & p1 & m1 & ->).
        exists (PY, mkSt l1 r1 c p1 ex (advance (comp_dy 0 (comp_at g c)) v) m1). split; [| do 5 eexists; reflexivity].
        hop ltac:(yes). after D. stay ltac:(no).
    + do 5 eexists; reflexivity.
    + destruct H as (l1 & r1 & p1 & u1 & m1 & ->).
      exists (PO, mkSt l1 r1 (inc c) p1 u1 ey m1). split; [| do 6 eexists; reflexivity].
      hop ltac:(on; rewrite !(proj2 (Z.eqb_neq _ _)) by lia; cbn [orb]). after D. stay ltac:(no).
  - do 6 eexists; reflexivity.
  - destruct H as (l1 & r1 & p1 & x1 & y1 & m1 & ->).
    eexists. split; [exact D |]. cbn [cprl cp]. rewrite (proj2 (Z.leb_le _ _)) by lia. reflexivity.
Qed.

(** ** All calls *)

Definition visits (g : cfg) (o : order) : list packet :=
  match o with
  | LRCP => lrcp_visits g | RLCP => rlcp_visits g | RPCL => rpcl_visits g
  | PCRL => pcrl_visits g | CPRL => cprl_visits g
  end.

Definition steps_ok (g : cfg) (o : order) : Prop :=
  match o with
  | LRCP | RLCP => True
  | RPCL | PCRL => 0 < all_dx g < 2 ^ 32 /\ 0 < all_dy g < 2 ^ 32
  | CPRL => forall c, comp0 g <= c < comp1 g ->
              0 < comp_dx 0 (comp_at g c) < 2 ^ 32 /\ 0 < comp_dy 0 (comp_at g c) < 2 ^ 32
  end.

Lemma drain_seq : forall g (L : Type) (step : L -> st -> move L) (again first : L) o s0 s n f,

  (forall f s, next g o f false s = go step f again s) ->
  (forall f, next g o f true s0 = go step f first s) ->
  drain g o n f true s0 = calls step again n f first s.
Proof.
  intros g L step again first o s0 s n f H0 H1.
  assert (G : forall n s, drain g o n f false s = calls step again n f again s).
  { clear n. induction n; intros s1; [reflexivity |]. cbn [drain calls]. rewrite H0.
    destruct (go step f again s1) as [[[|] s2] |]; [rewrite IHn; reflexivity | reflexivity | reflexivity]. }
  destruct n; [reflexivity |]. cbn [drain calls]. rewrite H1.
  destruct (go step f first s) as [[[|] s2] |]; [rewrite G; reflexivity | reflexivity | reflexivity].
Qed.

Lemma drain_visits : forall g o s, bad_comps g = false -> bounded g -> indexed g -> indexed_at g -> placed g ->
  steps_ok g o ->
  exists n0 f0, forall n f, (n0 <= n)%nat -> (f0 <= f)%nat -> drain g o n f true s = Some (sift g (incl s) (visits g o)).
Proof.
  intros g o s HC HB HI HA HP HS. destruct s as [l r c p u v m]. destruct o; cbn [visits steps_ok incl] in *.
  - destruct (lrcp_does g r c p u v m HB HI) as (s & D & E).
    destruct (calls_does _ _ _ _ _ _ _ D E eq_refl) as (n0 & f0 & H). exists n0, f0. intros n f Hn Hf.
    refine (eq_trans _ (H n f Hn Hf)). eapply drain_seq.
    + intros. unfold next. rewrite HC. reflexivity.
    + intros. unfold next. rewrite HC. reflexivity.
  - destruct (rlcp_does g l c p u v m HB HI) as (s & D & E).
    destruct (calls_does _ _ _ _ _ _ _ D E eq_refl) as (n0 & f0 & H). exists n0, f0. intros n f Hn Hf.
    refine (eq_trans _ (H n f Hn Hf)). eapply drain_seq.
    + intros. unfold next. rewrite HC. reflexivity.
    + intros. unfold next. rewrite HC. reflexivity.
  - destruct HS as [HX HY].
    destruct (rpcl_does g l c p u v m HB HA HP HX HY) as (s & D & E).
    destruct (calls_does _ _ _ _ _ _ _ D E eq_refl) as (n0 & f0 & H). exists n0, f0. intros n f Hn Hf.
    refine (eq_trans _ (H n f Hn Hf)). eapply drain_seq.
    + intros. unfold next. rewrite HC. reflexivity.
    + intros. unfold next. rewrite HC. rewrite !(proj2 (Z.eqb_neq _ _)) by lia. reflexivity.
  - destruct HS as [HX HY].
    destruct (pcrl_does g l r c p u m HB HA HP HX HY) as (s & D & E).
    destruct (calls_does _ _ _ _ _ _ _ D E eq_refl) as (n0 & f0 & H). exists n0, f0. intros n f Hn Hf.
    refine (eq_trans _ (H n f Hn Hf)). eapply drain_seq.
    + intros. unfold next. rewrite HC. reflexivity.
    + intros. unfold next. rewrite HC. rewrite !(proj2 (Z.eqb_neq _ _)) by lia. reflexivity.
  - destruct (cprl_does g l r p u v m HB HA HP HS) as (s & D & E).
    destruct (calls_does _ _ _ _ _ _ _ D E eq_refl) as (n0 & f0 & H). exists n0, f0. intros n f Hn Hf.
    refine (eq_trans _ (H n f Hn Hf)). eapply drain_seq.
    + intros. unfold next. rewrite HC. reflexivity.
    + intros. unfold next. rewrite HC. reflexivity.
Qed.
