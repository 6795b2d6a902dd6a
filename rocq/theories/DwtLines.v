(** The loops of dwt.rs compute the closed forms of DwtSpec.v. *)

From Coq Require Import ZArith List Bool Lia.
From Verif Require Import I32 Mem DwtModel DwtSpec DwtProofs.
Import ListNotations.
Local Open Scope Z_scope.
Ltac Zify.zify_post_hook ::= Z.div_mod_to_equations.

Ltac fill w v H1 H2 := match goal with |- context [for_to ?lo ?hi ?f ?m] =>
  let H := fresh in pose proof (fill_spec lo hi w v f m) as H;
  cbv beta in H; generalize dependent (for_to lo hi f m); intros ? H; edestruct H as [H1 H2]; clear H end.

(** ** Inverse *)

Lemma interleave_spec : forall cas n m a stride buf, cas = 0 \/ cas = 1 -> 0 <= n ->
  let buf' := interleave (nlow cas n) (nhigh cas n) cas m a stride buf in
  (forall i, 0 <= i < nlow cas n -> buf' (lowp cas i) = m (a + i * stride)) /\
  (forall i, 0 <= i < nhigh cas n -> buf' (highp cas i) = m (a + (nlow cas n + i) * stride)).
Proof.
  intros cas n m a stride buf Hc Hn. unfold interleave. cbn zeta.
  set (sn := nlow cas n). set (dn := nhigh cas n).
  destruct (fill_spec 0 sn (fun i => cas + 2 * i) (fun i => m (a + i * stride))
    (fun i b => upd b (cas + 2 * i) (m (a + i * stride))) buf) as [A1 A2].
  { intros; lia. } { reflexivity. }
  set (b1 := for_to 0 sn _ buf) in *.
  destruct (fill_spec 0 dn (fun i => 1 - cas + 2 * i) (fun i => m (a + sn * stride + i * stride))
    (fun i b => upd b (1 - cas + 2 * i) (m (a + sn * stride + i * stride))) b1) as [B1 B2].
  { intros; lia. } { reflexivity. }
  split; intros i Hi.
  - rewrite B2 by (unfold lowp; lia). unfold lowp. rewrite <- A1 by exact Hi. f_equal. lia.
  - unfold highp. replace (2 * i + 1 - cas) with (1 - cas + 2 * i) by lia. rewrite B1 by exact Hi.
    f_equal. lia.
Qed.

Lemma decode_1_spec : forall cas n y buf, cas = 0 \/ cas = 1 -> 1 <= n ->
  (forall i, 0 <= i < nlow cas n -> buf (lowp cas i) = y i) ->
  (forall i, 0 <= i < nhigh cas n -> buf (highp cas i) = y (nlow cas n + i)) ->
  forall p, 0 <= p < n -> decode_1 (nlow cas n) (nhigh cas n) cas buf p = iline cas n y p.
Proof.
  intros cas n y buf Hc Hn HL HH p Hp. unfold decode_1, iline.
  set (sn := nlow cas n) in *. set (dn := nhigh cas n) in *.
  assert (Hsum : sn + dn = n) by (unfold dn, nhigh; fold sn; lia).
  destruct (Z.eqb_spec n 1) as [E1 | Hn1].
  { destruct Hc as [-> | ->]; cbn [Z.eqb].
    - assert (sn = 1 /\ dn = 0) as [E2 E3] by (unfold dn, nhigh, sn, nlow in *; lia). rewrite E2, E3. cbn [Z.ltb].
      change ((0 <? 0) || (1 <? 1)) with false. cbn iota. replace p with (lowp 0 0) by (unfold lowp; lia).
      rewrite HL by lia. reflexivity.
    - assert (sn = 0 /\ dn = 1) as [E2 E3] by (unfold dn, nhigh, sn, nlow in *; lia). rewrite E2, E3.
      change ((0 =? 0) && (1 =? 1)) with true. cbn iota. replace p with 0 by lia. rewrite upd_same.
      change 0 with (highp 1 0) at 1. rewrite HH by lia. f_equal. f_equal. lia. }
  assert (Hsn : 1 <= sn) by (unfold sn, nlow; lia).
  assert (Hdn : 1 <= dn) by (unfold dn, nhigh, nlow; lia).
  assert (Cd : forall i, 0 <= clamp dn i < dn) by (intros; unfold clamp; lia).
  assert (Cs : forall i, 0 <= clamp sn i < sn) by (intros; unfold clamp; lia).
  unfold lowp, highp in HL, HH.
  destruct Hc as [-> | ->]; cbn [Z.eqb].
  - replace ((0 <? dn) || (1 <? sn)) with true by (symmetry; apply orb_true_intro; left; apply Z.ltb_lt; lia).
    match goal with |- for_to 0 dn ?f2 (for_to 0 sn ?f1 buf) p = _ =>
      destruct (fill_spec 0 sn (fun i => 2 * i) (ilow 0 n y) f1 buf) as [A1 A2] end.
    { intros; lia. }
    { intros i b Hi B1 B2 q. unfold ilow. fold sn dn.
      pose proof (Cd (i - 1)) as C1. pose proof (Cd i) as C2.
      rewrite (B1 (2 * i)) by lia. rewrite !B1 by lia.
      replace (2 * i) with (2 * i + 0) at 2 by lia. rewrite HL by lia.
      replace (1 + 2 * clamp dn (i - 1)) with (2 * clamp dn (i - 1) + 1 - 0) by lia. rewrite HH by lia.
      replace (1 + 2 * clamp dn i) with (2 * clamp dn i + 1 - 0) by lia. rewrite HH by lia.
      replace (i - 1 + 0) with (i - 1) by lia. replace (i + 0) with i by lia. reflexivity. }
    match goal with |- for_to 0 dn ?f2 ?b1 p = _ =>
      set (buf1 := b1) in *; destruct (fill_spec 0 dn (fun i => 1 + 2 * i) (ihigh 0 n y) f2 buf1) as [D1 D2] end.
    { intros; lia. }
    { intros i b Hi B1 B2 q. unfold ihigh. fold sn dn.
      pose proof (Cs i) as C1. pose proof (Cs (i + 1)) as C2.
      rewrite (B1 (1 + 2 * i)) by lia. rewrite (B1 (2 * clamp sn i)), (B1 (2 * clamp sn (i + 1))) by lia.
      rewrite !A1 by lia. rewrite (A2 (1 + 2 * i)) by lia.
      replace (1 + 2 * i) with (2 * i + 1 - 0) at 2 by lia. rewrite HH by lia.
      replace (i - 0) with i by lia. reflexivity. }
    destruct (Z.eqb_spec (p mod 2) 0) as [E | E].
    + rewrite D2 by lia. replace p with (2 * (p / 2)) at 1 by lia. apply A1. unfold sn, nlow in *. lia.
    + replace p with (1 + 2 * (p / 2)) at 1 by lia. apply D1. unfold dn, nhigh, nlow in *. lia.
  - replace ((sn =? 0) && (dn =? 1)) with false by (symmetry; apply andb_false_intro1, Z.eqb_neq; lia).
    match goal with |- for_to 0 dn ?f2 (for_to 0 sn ?f1 buf) p = _ =>
      destruct (fill_spec 0 sn (fun i => 1 + 2 * i) (ilow 1 n y) f1 buf) as [A1 A2] end.
    { intros; lia. }
    { intros i b Hi B1 B2 q. unfold ilow. fold sn dn.
      pose proof (Cd (i + 1)) as C1. pose proof (Cd i) as C2.
      rewrite (B1 (1 + 2 * i)) by lia. rewrite !B1 by lia.
      replace (1 + 2 * i) with (2 * i + 1) at 2 by lia. rewrite HL by lia.
      replace (2 * clamp dn i) with (2 * clamp dn i + 1 - 1) by lia. rewrite HH by lia.
      replace (2 * clamp dn (i + 1)) with (2 * clamp dn (i + 1) + 1 - 1) by lia. rewrite HH by lia.
      replace (i - 1 + 1) with i by lia. reflexivity. }
    match goal with |- for_to 0 dn ?f2 ?b1 p = _ =>
      set (buf1 := b1) in *; destruct (fill_spec 0 dn (fun i => 2 * i) (ihigh 1 n y) f2 buf1) as [D1 D2] end.
    { intros; lia. }
    { intros i b Hi B1 B2 q. unfold ihigh. fold sn dn.
      pose proof (Cs i) as C1. pose proof (Cs (i - 1)) as C2.
      rewrite (B1 (2 * i)) by lia. rewrite (B1 (1 + 2 * clamp sn i)), (B1 (1 + 2 * clamp sn (i - 1))) by lia.
      rewrite !A1 by lia. rewrite (A2 (2 * i)) by lia.
      replace (2 * i) with (2 * i + 1 - 1) at 2 by lia. rewrite HH by lia.
      rewrite half_comm. replace (i - 1 + 1) with i by lia. reflexivity. }
    destruct (Z.eqb_spec (p mod 2) 1) as [E | E].
    + rewrite D2 by lia. replace p with (1 + 2 * (p / 2)) at 1 by lia. apply A1. unfold sn, nlow in *. lia.
    + replace p with (2 * (p / 2)) at 1 by lia. apply D1. unfold dn, nhigh, nlow in *. lia.
Qed.

Lemma copy_spec : forall n w v (m : mem), (forall i j, 0 <= i < n -> 0 <= j < n -> w i = w j -> i = j) ->
  let m' := for_to 0 n (fun k m => upd m (w k) (v k)) m in
  (forall i, 0 <= i < n -> m' (w i) = v i) /\ (forall x, (forall i, 0 <= i < n -> x <> w i) -> m' x = m x).
Proof. intros n w v m H. cbn zeta. apply fill_spec; [exact H | reflexivity]. Qed.

(** One row restored in place; [n] may be 0. *)
Lemma idwt_h_spec : forall cas n a m buf, cas = 0 \/ cas = 1 -> 0 <= n ->
  let m' := fst (idwt_h (nlow cas n) (nhigh cas n) cas a (m, buf)) in
  (forall p, 0 <= p < n -> m' (a + p) = iline cas n (fun k => m (a + k)) p) /\
  (forall x, ~ a <= x < a + n -> m' x = m x).
Proof.
  intros cas n a m buf Hc Hn. unfold idwt_h. cbn [fst].
  destruct (interleave_spec cas n m a 1 buf Hc Hn) as [I1 I2].
  set (b1 := interleave _ _ _ _ _ _ _) in *.
  replace (nlow cas n + nhigh cas n) with n by (unfold nhigh; lia).
  destruct (copy_spec n (fun k => a + k) (fun k => decode_1 (nlow cas n) (nhigh cas n) cas b1 k) m) as [C1 C2]; [intros; lia |].
  split.
  - intros p Hp. rewrite C1 by exact Hp. apply decode_1_spec; [exact Hc | lia | | | exact Hp].
    + intros i Hi. rewrite I1 by exact Hi. f_equal. lia.
    + intros i Hi. rewrite I2 by exact Hi. f_equal. lia.
  - intros x Hx. apply C2. intros i Hi. lia.
Qed.

Lemma mul_inj : forall s i j, 0 < s -> i * s = j * s -> i = j.
Proof. intros. nia. Qed.

(** Columns [a .. a + cols) with a stride larger than the offset of the last
    column restored in place. *)
Lemma idwt_v_spec : forall cas n a stride cols m buf, cas = 0 \/ cas = 1 -> 0 <= n ->
  0 <= a -> 0 <= cols -> a + cols <= stride ->
  let m' := fst (idwt_v (nlow cas n) (nhigh cas n) cas a stride cols (m, buf)) in
  (forall p c, 0 <= p < n -> 0 <= c < cols ->
     m' (p * stride + (a + c)) = iline cas n (fun k => m (k * stride + (a + c))) p) /\
  (forall p c, 0 <= c < stride -> ~ (0 <= p < n /\ a <= c < a + cols) -> m' (p * stride + c) = m (p * stride + c)).
Proof.
  intros cas n a stride cols m buf Hc Hn Ha Hcols Hst. unfold idwt_v.
  match goal with |- context [for_to 0 cols ?f (m, buf)] =>
    assert (G : (fun k st => k <= cols ->
      (forall p c, 0 <= p < n -> 0 <= c < k ->
         fst st (p * stride + (a + c)) = iline cas n (fun k => m (k * stride + (a + c))) p) /\
      (forall p c, 0 <= c < stride -> ~ (0 <= p < n /\ a <= c < a + k) -> fst st (p * stride + c) = m (p * stride + c)))
      cols (for_to 0 cols f (m, buf))) end.
  2:{ apply G. lia. }
  apply for_ind; [lia | |].
  - intros _. split; [intros; lia | reflexivity].
  - intros c0 [m1 b0] Hc0 IH Hk. destruct (IH ltac:(lia)) as [I1 I2]. cbn [fst] in *.
    destruct (interleave_spec cas n m1 (a + c0) stride b0 Hc Hn) as [J1 J2].
    set (b1 := interleave _ _ _ _ _ _ _) in *.
    replace (nlow cas n + nhigh cas n) with n by (unfold nhigh; lia).
    destruct (copy_spec n (fun k => a + (c0 + k * stride)) (fun k => decode_1 (nlow cas n) (nhigh cas n) cas b1 k) m1) as [C1 C2].
    { intros i j Hi Hj E. nia. }
    cbv beta in C1, C2.
    assert (D : forall p, 0 <= p < n -> decode_1 (nlow cas n) (nhigh cas n) cas b1 p =
                iline cas n (fun k => m (k * stride + (a + c0))) p).
    { intros p Hp. erewrite (decode_1_spec cas n (fun k => m1 (k * stride + (a + c0)))); [| exact Hc | lia | | | exact Hp].
      - apply iline_ext; [exact Hc | lia | | exact Hp]. intros k Hk'. apply I2; lia.
      - intros i Hi. rewrite J1 by exact Hi. f_equal. lia.
      - intros i Hi. rewrite J2 by exact Hi. f_equal. lia. }
    split.
    + intros p c Hp Hcc. destruct (Z.eq_dec c c0) as [-> | Hne].
      * replace (p * stride + (a + c0)) with (a + (c0 + p * stride)) by lia. rewrite C1 by exact Hp. apply D, Hp.
      * rewrite C2.
        -- apply I1; lia.
        -- intros i Hi E. destruct (row_col stride p i (a + c) (a + c0)); lia.
    + intros p c Hcc Hnot. rewrite C2.
      * apply I2; lia.
      * intros i Hi E. destruct (row_col stride p i c (a + c0)) as [-> ->]; [lia | lia | lia |]. apply Hnot. lia.
Qed.
