(** Proofs about the 5/3 transform of one line. *)

From Coq Require Import ZArith List Bool Lia.
From Verif Require Import I32 Mem DwtModel DwtSpec.
Import ListNotations.
Local Open Scope Z_scope.
Ltac Zify.zify_post_hook ::= Z.div_mod_to_equations.

Lemma half_comm : forall a b, half a b = half b a.
Proof. intros. unfold half. rewrite Z.add_comm. reflexivity. Qed.

Lemma quarter_comm : forall a b, quarter a b = quarter b a.
Proof. intros. unfold quarter. rewrite (Z.add_comm a b). reflexivity. Qed.

Lemma half_same : forall a, small a -> half a a = a.
Proof.
  intros a H. unfold half, sar, small in *. rewrite i32_id by (unfold in_i32; lia).
  rewrite Z.shiftr_div_pow2 by lia. change (2 ^ 1) with 2. lia.
Qed.

Lemma small_i32 : forall a, small a -> in_i32 a.
Proof. unfold small, in_i32. lia. Qed.

(** ** Inversion on closed forms *)

Lemma line_inv : forall cas n x, cas = 0 \/ cas = 1 -> 1 <= n ->
  (forall p, 0 <= p < n -> small (x p)) ->
  forall p, 0 <= p < n -> iline cas n (fline cas n x) p = x p.
Proof.
  intros cas n x Hc Hn Hs p Hp. unfold iline.
  destruct (Z.eqb_spec n 1) as [-> | Hn1].
  { replace p with 0 by lia. unfold fline. cbn [Z.eqb]. change (1 =? 1) with true. cbn iota.
    pose proof (Hs 0 ltac:(lia)) as H0. destruct (Z.eqb_spec cas 0); [reflexivity |].
    rewrite i32_id by (unfold small, in_i32 in *; lia). apply Z.quot_mul. lia. }
  set (sn := nlow cas n). set (dn := nhigh cas n).
  assert (Hsn : 1 <= sn) by (unfold sn, nlow; lia).
  assert (Hdn : 1 <= dn) by (unfold dn, nhigh, nlow; lia).
  assert (Hsum : sn + dn = n) by (unfold dn, nhigh; lia).
  assert (FH : forall i, 0 <= i < dn -> fline cas n x (sn + i) = fhigh cas n x i).
  { intros i Hi. unfold fline. replace (n =? 1) with false by (symmetry; apply Z.eqb_neq; lia).
    fold sn. replace (sn + i <? sn) with false by (symmetry; apply Z.ltb_ge; lia). f_equal. lia. }
  assert (FL : forall i, 0 <= i < sn -> fline cas n x i = flow cas n x i).
  { intros i Hi. unfold fline. replace (n =? 1) with false by (symmetry; apply Z.eqb_neq; lia).
    fold sn. replace (i <? sn) with true by (symmetry; apply Z.ltb_lt; lia). reflexivity. }
  assert (Cd : forall i, 0 <= clamp dn i < dn) by (intros; unfold clamp; lia).
  assert (Cs : forall i, 0 <= clamp sn i < sn) by (intros; unfold clamp; lia).
  assert (LP : forall i, 0 <= i < sn -> 0 <= lowp cas i < n).
  { intros i Hi. unfold lowp, sn, nlow in *. lia. }
  assert (IL : forall i, 0 <= i < sn -> ilow cas n (fline cas n x) i = x (lowp cas i)).
  { intros i Hi. unfold ilow. fold sn dn. rewrite !FH by apply Cd. rewrite FL by exact Hi.
    unfold flow. fold dn. apply i32_add_sub. apply small_i32, Hs, LP, Hi. }
  assert (PC : p mod 2 = cas \/ p mod 2 = 1 - cas) by lia.
  destruct (Z.eqb_spec (p mod 2) cas) as [E | E].
  - rewrite IL by (unfold sn, nlow in *; lia). f_equal. unfold lowp. lia.
  - assert (Hi : 0 <= p / 2 < dn) by (unfold dn, nhigh, nlow in *; lia).
    unfold ihigh. fold sn. rewrite FH by exact Hi. rewrite !IL by apply Cs. unfold fhigh. fold sn.
    replace (highp cas (p / 2)) with p by (unfold highp; lia).
    set (a := clamp sn (p / 2 - cas)). set (b := clamp sn (p / 2 - cas + 1)).
    destruct (Z.eqb_spec a b) as [<- | Hab].
    + rewrite half_same by (apply Hs, LP, Cs). apply i32_sub_add. apply small_i32, Hs, Hp.
    + apply i32_sub_add. apply small_i32, Hs, Hp.
Qed.

Lemma iline_ext : forall cas n x y, cas = 0 \/ cas = 1 -> 1 <= n -> (forall k, 0 <= k < n -> x k = y k) ->
  forall p, 0 <= p < n -> iline cas n x p = iline cas n y p.
Proof.
  intros cas n x y Hc Hn H p Hp. unfold iline.
  destruct (Z.eqb_spec n 1) as [-> | Hn1]; [rewrite H by lia; reflexivity |].
  set (sn := nlow cas n). set (dn := nhigh cas n).
  assert (Hsn : 1 <= sn) by (unfold sn, nlow; lia).
  assert (Hdn : 1 <= dn) by (unfold dn, nhigh, nlow; lia).
  assert (Hsum : sn + dn = n) by (unfold dn, nhigh; lia).
  assert (Cd : forall i, 0 <= clamp dn i < dn) by (intros; unfold clamp; lia).
  assert (Cs : forall i, 0 <= clamp sn i < sn) by (intros; unfold clamp; lia).
  assert (IL : forall i, 0 <= i < sn -> ilow cas n x i = ilow cas n y i).
  { intros i Hi. unfold ilow. fold sn dn. pose proof (Cd (i - 1 + cas)). pose proof (Cd (i + cas)).
    rewrite !H by lia. reflexivity. }
  destruct (Z.eqb_spec (p mod 2) cas) as [E | E].
  - apply IL. unfold sn, nlow in *. lia.
  - unfold ihigh. fold sn. rewrite H by (unfold dn, nhigh, nlow in *; lia).
    rewrite !IL by apply Cs. reflexivity.
Qed.

Lemma fline_ext : forall cas n x y, cas = 0 \/ cas = 1 -> 1 <= n -> (forall k, 0 <= k < n -> x k = y k) ->
  forall p, 0 <= p < n -> fline cas n x p = fline cas n y p.
Proof.
  intros cas n x y Hc Hn H p Hp. unfold fline.
  destruct (Z.eqb_spec n 1) as [-> | Hn1]; [rewrite H by lia; reflexivity |].
  set (sn := nlow cas n). set (dn := nhigh cas n).
  assert (Hsn : 1 <= sn) by (unfold sn, nlow; lia).
  assert (Hdn : 1 <= dn) by (unfold dn, nhigh, nlow; lia).
  assert (Hsum : sn + dn = n) by (unfold dn, nhigh; lia).
  assert (Cd : forall i, 0 <= clamp dn i < dn) by (intros; unfold clamp; lia).
  assert (Cs : forall i, 0 <= clamp sn i < sn) by (intros; unfold clamp; lia).
  assert (LP : forall i, 0 <= i < sn -> 0 <= lowp cas i < n).
  { intros i Hi. unfold lowp, sn, nlow in *. lia. }
  assert (FH : forall i, 0 <= i < dn -> fhigh cas n x i = fhigh cas n y i).
  { intros i Hi. unfold fhigh. fold sn. rewrite !H; try (apply LP, Cs); [reflexivity |].
    unfold highp, dn, nhigh, nlow in *. lia. }
  destruct (Z.ltb_spec p sn).
  - unfold flow. fold dn. rewrite !FH by apply Cd. rewrite H by (apply LP; lia). reflexivity.
  - apply FH. lia.
Qed.
