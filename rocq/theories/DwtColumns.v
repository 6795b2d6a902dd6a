(** The vertical forward pass computes the closed form on every column. *)

From Coq Require Import ZArith List Bool Lia.
From Verif Require Import I32 Mem DwtModel DwtSpec DwtProofs DwtLines DwtForward.
Import ListNotations.
Local Open Scope Z_scope.
Ltac Zify.zify_post_hook ::= Z.div_mod_to_equations.

(** The lifting steps on a single column. *)
Definition lift1 (height sn dn : Z) (even : bool) (u : mem) : mem :=
  if even then
    if 1 <? height then
      let u := for_to 0 (sn - 1) (fun i t => sub_at t (2 * i + 1) (half (t (2 * i)) (t (2 * (i + 1))))) u in
      let i := Z.max 0 (sn - 1) in
      let u := if height mod 2 =? 0 then sub_at u (2 * i + 1) (u (2 * i)) else u in
      let u := add_at u 0 (quarter (u 1) (u 1)) in
      let u := for_to 1 dn (fun i t => add_at t (2 * i) (quarter (t (2 * (i - 1) + 1)) (t (2 * i + 1)))) u in
      let i := Z.max 1 dn in
      if height mod 2 =? 1 then add_at u (2 * i) (quarter (u (2 * (i - 1) + 1)) (u (2 * (i - 1) + 1))) else u
    else u
  else if height =? 1 then upd u 0 (i32 (u 0 * 2))
  else
    let u := sub_at u 0 (u 1) in
    let u := for_to 1 sn (fun i t => sub_at t (2 * i) (half (t (2 * i + 1)) (t (2 * (i - 1) + 1)))) u in
    let i := Z.max 1 sn in
    let u := if height mod 2 =? 1 then sub_at u (2 * i) (u (2 * (i - 1) + 1)) else u in
    let u := for_to 0 (dn - 1) (fun i t => add_at t (2 * i + 1) (quarter (t (2 * i)) (t (2 * (i + 1))))) u in
    let i := Z.max 0 (dn - 1) in
    if height mod 2 =? 0 then add_at u (2 * i + 1) (quarter (u (2 * i)) (u (2 * i))) else u.

Definition Sim (t : mem) (u : Z -> mem) : Prop := forall c q, 0 <= c < 8 -> t (8 * q + c) = u c q.

Lemma sim_each8 : forall p vf f t u, Sim t u ->
  (forall c s x, 0 <= c < 8 -> f c s x = upd s (8 * p + c) (vf (fun q => s (8 * q + c))) x) ->
  (forall a b : mem, (forall q, a q = b q) -> vf a = vf b) ->
  Sim (each8 f t) (fun c => upd (u c) p (vf (u c))).
Proof.
  intros p vf f t u HS Hf Hv. unfold each8.
  pose (P := fun k (s : mem) => k <= 8 -> forall c q, 0 <= c < 8 ->
      s (8 * q + c) = if c <? k then upd (u c) p (vf (u c)) q else u c q).
  assert (G : P 8 (for_to 0 8 f t)).
  2:{ intros c q Hc. rewrite (G ltac:(lia) c q Hc). replace (c <? 8) with true by (symmetry; apply Z.ltb_lt; lia). reflexivity. }
  apply (for_ind P 0 8); [lia | |]; unfold P.
  - intros _ c q Hc. replace (c <? 0) with false by (symmetry; apply Z.ltb_ge; lia). apply HS, Hc.
  - intros k s Hk IH _ c q Hc. rewrite Hf by exact Hk.
    destruct (Z.eq_dec c k) as [-> | Hne].
    + replace (k <? k + 1) with true by (symmetry; apply Z.ltb_lt; lia).
      assert (E : forall q, s (8 * q + k) = u k q).
      { intros r. rewrite IH by lia. replace (k <? k) with false by (symmetry; apply Z.ltb_ge; lia). reflexivity. }
      unfold upd. destruct (Z.eqb_spec (8 * q + k) (8 * p + k)), (Z.eqb_spec q p); first [apply Hv; exact E | apply E | lia].
    + rewrite upd_other by lia. rewrite IH by lia.
      destruct (Z.ltb_spec c k), (Z.ltb_spec c (k + 1)); try lia; reflexivity.
Qed.

Lemma sim_for : forall lo hi f g t u, Sim t u ->
  (forall i t u, Sim t u -> Sim (f i t) (fun c => g i (u c))) ->
  Sim (for_to lo hi f t) (fun c => for_to lo hi g (u c)).
Proof.
  intros lo hi f g t u HS H. unfold for_to. generalize (Z.to_nat (hi - lo)). intros n.
  revert lo t u HS. induction n; intros lo t u HS; cbn [loop]; [exact HS |].
  apply (IHn (lo + 1) (f lo t) (fun c => g lo (u c))). apply H, HS.
Qed.

Lemma sim_if : forall (b : bool) t u t' u', (b = true -> Sim t u) -> (b = false -> Sim t' u') ->
  Sim (if b then t else t') (fun c => if b then u c else u' c).
Proof. intros b t u t' u' H H'. destruct b; auto. Qed.

Lemma sim_sub : forall p w f t u, Sim t u ->
  (forall c s x, 0 <= c < 8 -> f c s x = sub_at s (8 * p + c) (w (fun q => s (8 * q + c))) x) ->
  (forall a b : mem, (forall q, a q = b q) -> w a = w b) ->
  Sim (each8 f t) (fun c => sub_at (u c) p (w (u c))).
Proof.
  intros p w f t u HS Hf Hw. apply (sim_each8 p (fun v => i32 (v p - w v)) f t u HS).
  - intros c s x Hc. rewrite Hf by exact Hc. reflexivity.
  - intros a b E. rewrite (Hw a b E), E. reflexivity.
Qed.

Lemma sim_add : forall p w f t u, Sim t u ->
  (forall c s x, 0 <= c < 8 -> f c s x = add_at s (8 * p + c) (w (fun q => s (8 * q + c))) x) ->
  (forall a b : mem, (forall q, a q = b q) -> w a = w b) ->
  Sim (each8 f t) (fun c => add_at (u c) p (w (u c))).
Proof.
  intros p w f t u HS Hf Hw. apply (sim_each8 p (fun v => i32 (v p + w v)) f t u HS).
  - intros c s x Hc. rewrite Hf by exact Hc. reflexivity.
  - intros a b E. rewrite (Hw a b E), E. reflexivity.
Qed.

Ltac idx := intros; unfold sub_at, add_at, sc, dc; ieq.
Ltac ext := let E := fresh in intros ? ? E; rewrite ?E; reflexivity.

Lemma lift_sim : forall height sn dn even t u, Sim t u ->
  Sim (lift_v height sn dn even t) (fun c => lift1 height sn dn even (u c)).
Proof.
  intros height sn dn even t u HS. unfold lift_v, lift1. destruct even.
  - apply sim_if; intros _; [| exact HS]. cbn zeta.
    apply (sim_if _ _ _ _ _).
    1: intros _; apply (sim_add (2 * Z.max 1 dn) (fun v => quarter (v (2 * (Z.max 1 dn - 1) + 1)) (v (2 * (Z.max 1 dn - 1) + 1)))); [| idx | ext].
    2: intros _.
    all: apply (sim_for 1 dn _ (fun i t => add_at t (2 * i) (quarter (t (2 * (i - 1) + 1)) (t (2 * i + 1)))));
      [| intros i t' u' H'; apply (sim_add (2 * i) (fun v => quarter (v (2 * (i - 1) + 1)) (v (2 * i + 1)))); [exact H' | idx | ext]].
    all: apply (sim_add 0 (fun v => quarter (v 1) (v 1))); [| idx | ext].
    all: apply sim_if; intros _;
      [apply (sim_sub (2 * Z.max 0 (sn - 1) + 1) (fun v => v (2 * Z.max 0 (sn - 1)))); [| idx | ext] |].
    all: apply (sim_for 0 (sn - 1) _ (fun i t => sub_at t (2 * i + 1) (half (t (2 * i)) (t (2 * (i + 1))))));
      [exact HS | intros i t' u' H'; apply (sim_sub (2 * i + 1) (fun v => half (v (2 * i)) (v (2 * (i + 1))))); [exact H' | idx | ext]].
  - apply sim_if; intros _.
    { apply (sim_each8 0 (fun v => i32 (v 0 * 2))); [exact HS | idx | ext]. }
    cbn zeta. apply (sim_if _ _ _ _ _).
    1: intros _; apply (sim_add (2 * Z.max 0 (dn - 1) + 1) (fun v => quarter (v (2 * Z.max 0 (dn - 1))) (v (2 * Z.max 0 (dn - 1))))); [| idx | ext].
    2: intros _.
    all: apply (sim_for 0 (dn - 1) _ (fun i t => add_at t (2 * i + 1) (quarter (t (2 * i)) (t (2 * (i + 1))))));
      [| intros i t' u' H'; apply (sim_add (2 * i + 1) (fun v => quarter (v (2 * i)) (v (2 * (i + 1))))); [exact H' | idx | ext]].
    all: apply sim_if; intros _;
      [apply (sim_sub (2 * Z.max 1 sn) (fun v => v (2 * (Z.max 1 sn - 1) + 1))); [| idx | ext] |].
    all: apply (sim_for 1 sn _ (fun i t => sub_at t (2 * i) (half (t (2 * i + 1)) (t (2 * (i - 1) + 1)))));
      [| intros i t' u' H'; apply (sim_sub (2 * i) (fun v => half (v (2 * i + 1)) (v (2 * (i - 1) + 1)))); [exact H' | idx | ext]].
    all: apply (sim_sub 0 (fun v => v 1)); [exact HS | idx | ext].
Qed.

Definition linepos (cas n k : Z) : Z := if k <? nlow cas n then lowp cas k else highp cas (k - nlow cas n).

Lemma sub_at_same : forall u x v, sub_at u x v x = i32 (u x - v).
Proof. intros. apply upd_same. Qed.
Lemma sub_at_other : forall u x v y, y <> x -> sub_at u x v y = u y.
Proof. intros. apply upd_other. assumption. Qed.
Lemma add_at_same : forall u x v, add_at u x v x = i32 (u x + v).
Proof. intros. apply upd_same. Qed.
Lemma add_at_other : forall u x v y, y <> x -> add_at u x v y = u y.
Proof. intros. apply upd_other. assumption. Qed.

Lemma lift1_spec : forall n even x, 1 <= n -> forall k, 0 <= k < n ->
  lift1 n (nlow (cas_of even) n) (nhigh (cas_of even) n) even x (linepos (cas_of even) n k) = fline (cas_of even) n x k.
Proof.
  intros n even x Hn k Hk. unfold lift1, fline, linepos. destruct even; cbn [cas_of].
  - set (sn := nlow 0 n). set (dn := nhigh 0 n).
    destruct (Z.ltb_spec 1 n) as [H1 | H1].
    2:{ replace (n =? 1) with true by (symmetry; apply Z.eqb_eq; lia).
        assert (sn = 1) by (unfold sn, nlow; lia). replace (k <? sn) with true by (symmetry; apply Z.ltb_lt; lia).
        cbn [Z.eqb]. f_equal. unfold lowp. lia. }
    replace (n =? 1) with false by (symmetry; apply Z.eqb_neq; lia). cbn zeta.
    assert (Hsn : 1 <= sn) by (unfold sn, nlow; lia).
    assert (Hdn : 1 <= dn) by (unfold dn, nhigh, nlow; lia).
    match goal with |- context [for_to 0 (sn - 1) ?f x] =>
      destruct (fill_spec 0 (sn - 1) (fun i => 2 * i + 1) (fhigh 0 n x) f x) as [A1 A2];
      [intros; lia | | set (t1 := for_to 0 (sn - 1) f x) in *] end.
    { intros i t Hi B1 B2 q. rewrite fhigh_even_mid by exact Hi. unfold sub_at. rewrite !B1 by lia. reflexivity. }
    rewrite !Z.max_r by lia.
    match goal with |- context [add_at ?t 0 (quarter (?t 1) (?t 1))] => set (t2 := t) in * end.
    assert (T : forall i, 0 <= i < dn -> t2 (2 * i + 1) = fhigh 0 n x i).
    { intros i Hi. unfold t2. destruct (Z.eqb_spec (n mod 2) 0) as [E | E].
      - destruct (Z.eq_dec i (sn - 1)) as [-> | Hne].
        + rewrite sub_at_same. pose proof (fhigh_even_end n x Hsn) as F. fold sn in F. rewrite F. rewrite !A2 by lia. reflexivity.
        + rewrite sub_at_other by lia. apply A1. unfold dn, sn, nhigh, nlow in *. lia.
      - apply A1. unfold dn, sn, nhigh, nlow in *. lia. }
    assert (T' : forall i, t2 (2 * i) = x (2 * i)).
    { intros i. unfold t2. destruct (n mod 2 =? 0); [rewrite sub_at_other by lia |]; apply A2; lia. }
    clearbody t2. clear A1 A2 t1.
    set (m1 := add_at t2 0 _).
    match goal with |- context [for_to 1 dn ?f m1] =>
      destruct (fill_spec 1 dn (fun i => 2 * i) (flow 0 n x) f m1) as [A1 A2];
      [intros; lia | | set (m2 := for_to 1 dn f m1) in *] end.
    { intros i t Hi B1 B2 q. unfold add_at. rewrite (B1 (2 * i)) by lia. rewrite (B1 (2 * (i - 1) + 1)), (B1 (2 * i + 1)) by lia.
      unfold m1. rewrite !add_at_other by lia. rewrite !T by lia. rewrite T'.
      rewrite (flow_eq 0 n x i (i - 1) i).
      - unfold lowp. ieq.
      - unfold clamp. change (nhigh 0 n) with dn. lia.
      - unfold clamp. change (nhigh 0 n) with dn. lia. }
    assert (M0 : m2 0 = flow 0 n x 0).
    { rewrite A2 by lia. unfold m1. rewrite add_at_same. replace (t2 1) with (fhigh 0 n x 0) by (rewrite <- T by lia; f_equal; lia).
      rewrite (flow_eq 0 n x 0 0 0) by (unfold clamp; change (nhigh 0 n) with dn; lia).
      unfold lowp. pose proof (T' 0) as F. change (2 * 0) with 0 in F. rewrite F. ieq. }
    assert (MH : forall i, 0 <= i < dn -> m2 (2 * i + 1) = fhigh 0 n x i).
    { intros i Hi. rewrite A2 by lia. unfold m1. rewrite add_at_other by lia. apply T, Hi. }
    assert (ME : forall i, dn <= i -> m2 (2 * i) = x (2 * i)).
    { intros i Hi. rewrite A2 by lia. unfold m1. rewrite add_at_other by lia. apply T'. }
    destruct (Z.ltb_spec k sn) as [L | L].
    + unfold lowp. replace (2 * k + 0) with (2 * k) by lia.
      destruct (Z.eqb_spec (n mod 2) 1) as [E | E].
      * destruct (Z.eq_dec k dn) as [-> | Hne].
        -- rewrite add_at_same. rewrite ME by lia. rewrite MH by lia.
           rewrite (flow_eq 0 n x dn (dn - 1) (dn - 1)) by (unfold clamp; change (nhigh 0 n) with dn; lia).
           unfold lowp. ieq.
        -- rewrite add_at_other by lia. destruct (Z.eq_dec k 0) as [-> | H0]; [exact M0 |].
           apply A1. unfold dn, sn, nhigh, nlow in *. lia.
      * destruct (Z.eq_dec k 0) as [-> | H0]; [exact M0 |]. apply A1. unfold dn, sn, nhigh, nlow in *. lia.
    + unfold highp. replace (2 * (k - sn) + 1 - 0) with (2 * (k - sn) + 1) by lia.
      assert (Hd : 0 <= k - sn < dn) by (unfold dn, nhigh; fold sn; lia).
      destruct (n mod 2 =? 1); [rewrite add_at_other by lia |]; apply MH, Hd.
  - set (sn := nlow 1 n). set (dn := nhigh 1 n).
    destruct (Z.eqb_spec n 1) as [E1 | H1].
    { assert (sn = 0) as E0 by (unfold sn, nlow; lia). replace (k <? sn) with false by (symmetry; apply Z.ltb_ge; lia).
      cbn [Z.eqb]. rewrite E0. replace k with 0 by lia. reflexivity. }
    cbn zeta.
    assert (Hsn : 1 <= sn) by (unfold sn, nlow; lia).
    assert (Hdn : 1 <= dn) by (unfold dn, nhigh, nlow; lia).
    set (t0 := sub_at x 0 _).
    match goal with |- context [for_to 1 sn ?f t0] =>
      destruct (fill_spec 1 sn (fun i => 2 * i) (fhigh 1 n x) f t0) as [A1 A2];
      [intros; lia | | set (t1 := for_to 1 sn f t0) in *] end.
    { intros i t Hi B1 B2 q. rewrite fhigh_odd_mid by exact Hi. unfold sub_at. rewrite !B1 by lia.
      unfold t0. rewrite !sub_at_other by lia. reflexivity. }
    rewrite !Z.max_r by lia.
    match goal with |- context [if n mod 2 =? 1 then ?u else t1] => set (t2 := if n mod 2 =? 1 then u else t1) in * end.
    assert (T : forall i, 0 <= i < dn -> t2 (2 * i) = fhigh 1 n x i).
    { assert (T0 : t1 0 = fhigh 1 n x 0).
      { rewrite A2 by lia. unfold t0. rewrite sub_at_same. rewrite fhigh_odd_first by exact Hsn. reflexivity. }
      intros i Hi. unfold t2. destruct (Z.eqb_spec (n mod 2) 1) as [E | E].
      - destruct (Z.eq_dec i sn) as [-> | Hne].
        + rewrite sub_at_same. pose proof (fhigh_odd_end n x Hsn) as F. fold sn in F. rewrite F. rewrite !A2 by lia.
          unfold t0. rewrite !sub_at_other by lia. reflexivity.
        + rewrite sub_at_other by lia. destruct (Z.eq_dec i 0) as [-> | H0]; [exact T0 |].
          apply A1. unfold dn, sn, nhigh, nlow in *. lia.
      - destruct (Z.eq_dec i 0) as [-> | H0]; [exact T0 |]. apply A1. unfold dn, sn, nhigh, nlow in *. lia. }
    assert (T' : forall i, t2 (2 * i + 1) = x (2 * i + 1)).
    { intros i. unfold t2. destruct (n mod 2 =? 1); [rewrite sub_at_other by lia |]; rewrite A2 by lia;
        unfold t0; rewrite sub_at_other by lia; reflexivity. }
    clearbody t2. clear A1 A2 t1 t0.
    match goal with |- context [for_to 0 (dn - 1) ?f t2] =>
      destruct (fill_spec 0 (dn - 1) (fun i => 2 * i + 1) (flow 1 n x) f t2) as [A1 A2];
      [intros; lia | | set (m2 := for_to 0 (dn - 1) f t2) in *] end.
    { intros i t Hi B1 B2 q. unfold add_at. rewrite (B1 (2 * i)), (B1 (2 * (i + 1))), (B1 (2 * i + 1)) by lia.
      rewrite !T by lia. rewrite T'. rewrite (flow_eq 1 n x i i (i + 1)).
      - unfold lowp. ieq.
      - unfold clamp. change (nhigh 1 n) with dn. lia.
      - unfold clamp. change (nhigh 1 n) with dn. lia. }
    assert (MH : forall i, 0 <= i < dn -> m2 (2 * i) = fhigh 1 n x i).
    { intros i Hi. rewrite A2 by lia. apply T, Hi. }
    destruct (Z.ltb_spec k sn) as [L | L].
    + unfold lowp. destruct (Z.eqb_spec (n mod 2) 0) as [E | E].
      * destruct (Z.eq_dec k (dn - 1)) as [-> | Hne].
        -- rewrite add_at_same. rewrite (A2 (2 * (dn - 1) + 1)) by lia. rewrite MH by lia. rewrite T'.
           rewrite (flow_eq 1 n x (dn - 1) (dn - 1) (dn - 1)) by (unfold clamp; change (nhigh 1 n) with dn; lia).
           unfold lowp. ieq.
        -- rewrite add_at_other by lia. apply A1. unfold dn, sn, nhigh, nlow in *. lia.
      * apply A1. unfold dn, sn, nhigh, nlow in *. lia.
    + unfold highp. replace (2 * (k - sn) + 1 - 1) with (2 * (k - sn)) by lia.
      assert (Hd : 0 <= k - sn < dn) by (unfold dn, nhigh; fold sn; lia).
      destruct (n mod 2 =? 0); [rewrite add_at_other by lia |]; apply MH, Hd.
Qed.

(** Filling a block of [rows] x [cols] cells with values read elsewhere. *)
Lemma block_fill : forall rows cols base stride (v : Z -> Z -> Z) (m : mem),
  0 <= rows -> 0 <= cols <= stride ->
  let m' := for_to 0 rows (fun i m => for_to 0 cols (fun c m => upd m (base + i * stride + c) (v i c)) m) m in
  (forall i c, 0 <= i < rows -> 0 <= c < cols -> m' (base + i * stride + c) = v i c) /\
  (forall x, (forall i c, 0 <= i < rows -> 0 <= c < cols -> x <> base + i * stride + c) -> m' x = m x).
Proof.
  intros rows cols base stride v m Hr Hc. cbn zeta.
  match goal with |- context [for_to 0 rows ?f m] => set (F := f) end.
  pose (P := fun k (n : mem) => k <= rows ->
    (forall i c, 0 <= i < k -> 0 <= c < cols -> n (base + i * stride + c) = v i c) /\
    (forall x, (forall i c, 0 <= i < k -> 0 <= c < cols -> x <> base + i * stride + c) -> n x = m x)).
  assert (G : P rows (for_to 0 rows F m)); [| apply G; lia].
  apply (for_ind P); [exact Hr | |]; unfold P.
  - intros _. split; intros; [lia | reflexivity].
  - intros k n Hk IH Hk'. destruct (IH ltac:(lia)) as [I1 I2]. unfold F.
    destruct (copy_spec cols (fun c => base + k * stride + c) (v k) n) as [C1 C2]; [intros; lia |].
    split.
    + intros i c Hi Hcc. destruct (Z.eq_dec i k) as [-> | Hne]; [apply C1, Hcc |].
      rewrite C2; [apply I1; lia |]. intros c' Hc' E.
      destruct (row_col stride i k c c'); lia.
    + intros x Hx. rewrite C2; [| intros; apply Hx; lia]. apply I2. intros i c Hi Hcc. apply Hx; lia.
Qed.

Lemma fetch_spec : forall m a height stride cols tmp, 0 <= height -> 0 <= cols <= 8 -> cols <= stride ->
  height * stride <= 2 ^ 32 ->
  forall k c, 0 <= k < height -> 0 <= c < cols ->
  fetch_cols m a height stride cols tmp (8 * k + c) = m (a + (c + k * stride)).
Proof.
  intros m a height stride cols tmp Hh Hc Hs Hb. unfold fetch_cols.
  match goal with |- context [for_to 0 height ?f tmp] => set (F := f) end.
  pose (P := fun h (t : mem) => h <= height -> forall k c, 0 <= k < h -> 0 <= c < cols -> t (8 * k + c) = m (a + (c + k * stride))).
  assert (G : P height (for_to 0 height F tmp)); [| intros k c Hk Hcc; apply G; lia].
  apply (for_ind P); [exact Hh | |]; unfold P.
  - intros; lia.
  - intros h t Hh' IH _ k c Hk Hcc. unfold F. 
    match goal with |- context [for_to 0 cols ?f t] =>
      destruct (fill_spec 0 cols (fun c => 8 * h + c) (fun c => m (a + (c + h * stride))) f t) as [A1 A2];
      [intros; lia | | set (t1 := for_to 0 cols f t) in *] end.
    { intros i s Hi _ _ q. do 3 f_equal. unfold u32. rewrite (Z.mod_small (h * stride)) by nia.
      rewrite Z.mod_small by nia. reflexivity. }
    destruct (fill_spec cols 8 (fun c => 8 * h + c) (fun _ => 0) (fun c t => upd t (8 * h + c) 0) t1) as [B1 B2];
      [intros; lia | reflexivity |].
    rewrite B2 by lia. destruct (Z.eq_dec k h) as [-> | Hne].
    + apply A1. exact Hcc.
    + rewrite A2 by lia. apply IH; lia.
Qed.

Lemma fdwt_v_spec : forall a n even stride cols m tmp, 1 <= n -> 0 <= a -> 0 <= cols <= 8 -> a + cols <= stride ->
  n * stride <= 2 ^ 32 ->
  let m' := fst (fdwt_v a n even stride cols (m, tmp)) in
  (forall p c, 0 <= p < n -> 0 <= c < cols ->
     m' (p * stride + (a + c)) = fline (cas_of even) n (fun k => m (k * stride + (a + c))) p) /\
  (forall p c, 0 <= c < stride -> ~ (0 <= p < n /\ a <= c < a + cols) -> m' (p * stride + c) = m (p * stride + c)).
Proof.
  intros a n even stride cols m tmp Hn Ha Hcols Hst Hsz. unfold fdwt_v.
  replace ((n + (if even then 1 else 0)) / 2) with (nlow (cas_of even) n)
    by (destruct even; unfold nlow; cbn [cas_of]; f_equal; lia).
  change (n - nlow (cas_of even) n) with (nhigh (cas_of even) n).
  set (sn := nlow (cas_of even) n). set (dn := nhigh (cas_of even) n).
  assert (Hcas : cas_of even = 0 \/ cas_of even = 1) by (destruct even; auto).
  assert (Hs0 : 0 <= sn) by (unfold sn, nlow; lia).
  assert (Hd0 : 0 <= dn) by (unfold dn, nhigh, nlow; lia).
  assert (Hsum : sn + dn = n) by (unfold dn, nhigh; fold sn; lia).
  set (t0 := fetch_cols m a n stride cols tmp).
  pose proof (lift_sim n sn dn even t0 (fun c q => t0 (8 * q + c)) ltac:(intros ? ? ?; reflexivity)) as HS.
  set (t1 := lift_v n sn dn even t0) in *.
  assert (T : forall k c, 0 <= k < n -> 0 <= c < cols ->
     t1 (8 * linepos (cas_of even) n k + c) = fline (cas_of even) n (fun q => m (q * stride + (a + c))) k).
  { intros k c Hk Hc. rewrite HS by lia. unfold sn, dn. rewrite lift1_spec by lia.
    apply fline_ext; [exact Hcas | lia | | exact Hk].
    intros q Hq. unfold t0. rewrite fetch_spec by lia. f_equal. lia. }
  cbn [fst]. replace (if even then 0 else 1) with (cas_of even) by (destruct even; reflexivity).
  unfold deinterleave_cols.
  destruct (block_fill sn cols a stride (fun i c => t1 (cas_of even * 8 + i * 16 + c)) m Hs0 ltac:(lia)) as [B1 B2].
  set (m1 := for_to 0 sn _ m) in *.
  destruct (block_fill dn cols (a + sn * stride) stride (fun i c => t1 ((1 - cas_of even) * 8 + i * 16 + c)) m1 Hd0 ltac:(lia)) as [D1 D2].
  set (m2 := for_to 0 dn _ m1) in *. split.
  - intros p c Hp Hc. destruct (Z_lt_le_dec p sn) as [L | L].
    + rewrite D2.
      2:{ intros i c' Hi Hc' E. destruct (row_col stride p (sn + i) (a + c) (a + c')); lia. }
      replace (p * stride + (a + c)) with (a + p * stride + c) by lia. rewrite B1 by lia.
      rewrite <- T by lia. unfold linepos. fold sn. replace (p <? sn) with true by (symmetry; apply Z.ltb_lt; lia).
      f_equal. unfold lowp. lia.
    + replace (p * stride + (a + c)) with (a + sn * stride + (p - sn) * stride + c) by lia. rewrite D1 by lia.
      rewrite <- T by lia. unfold linepos. fold sn. replace (p <? sn) with false by (symmetry; apply Z.ltb_ge; lia).
      f_equal. unfold highp. lia.
  - intros p c Hc Hnot. rewrite D2.
    + rewrite B2; [reflexivity |]. intros i c' Hi Hc' E. destruct (row_col stride p i c (a + c')); [lia | lia | lia |]. apply Hnot. lia.
    + intros i c' Hi Hc' E. destruct (row_col stride p (sn + i) c (a + c')); [lia | lia | lia |]. apply Hnot. lia.
Qed.
