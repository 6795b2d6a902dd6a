(** The check of progression order changes: the proofs. *)

From Coq Require Import ZArith List Bool Lia.
From Verif Require Import Ints PocModel.
Import ListNotations.
Local Open Scope Z_scope.

Lemma u32_step : forall x y, u32 (u32 x + y) = u32 (x + y).
Proof. intros x y. unfold u32. rewrite Zplus_mod_idemp_l. reflexivity. Qed.
Lemma u32_below : forall x, 0 <= x -> 0 <= u32 x <= x.
Proof. intros x H. unfold u32. split; [apply Z.mod_pos_bound; lia | apply Z.mod_le; lia]. Qed.

Section Poc.
Context (R C L : Z).
Hypothesis (HR : 0 < R) (HC : 0 < C) (HL : 0 < L) (HRC : R * C < 2 ^ 32).
Notation SL := (R * C).
Definition place (l r c : Z) : Z := l * SL + r * C + c.
Lemma place_in : forall l r c, 0 <= l < L -> 0 <= r < R -> 0 <= c < C -> 0 <= place l r c < SL * L.
Proof. intros l r c Hl Hr Hc. unfold place. nia. Qed.
Lemma place_mark : forall l r c, 0 <= l < L -> 0 <= r < R -> 0 <= c < C -> (0 <=? u32 (place l r c)) && (u32 (place l r c) <? SL * L) = true.
Proof.
  intros l r c Hl Hr Hc. pose proof (place_in l r c Hl Hr Hc) as P. pose proof (u32_below _ (proj1 P)) as U. apply andb_true_intro. split; [apply Z.leb_le | apply Z.ltb_lt]; lia.
Qed.
(** [a'] is [a] with the cells of [D] marked. *)
Definition marked (D : Z -> Z -> Z -> Prop) (a a' : cells) : Prop :=
  forall j, a' j = true <-> a j = true \/ exists l r c, D l r c /\ j = u32 (place l r c).

Lemma layers_marked : forall r c, 0 <= r < R -> 0 <= c < C -> forall k l0 a, 0 <= l0 -> l0 + Z.of_nat k <= L ->
  exists a', mark_layers (SL * L) SL k (u32 (place l0 r c)) a = Some a' /\ marked (fun l r' c' => l0 <= l < l0 + Z.of_nat k /\ r' = r /\ c' = c) a a'.
Proof.
  intros r c Hr Hc. induction k as [| k IH]; intros l0 a H0 H1; cbn [mark_layers].
  - exists a. split; [reflexivity |]. intros j. split; [auto |]. intros [E | (l & r' & c' & (Q & _) & _)]; [exact E | lia].
  - unfold mark. rewrite place_mark by lia. rewrite u32_step. replace (place l0 r c + SL) with (place (l0 + 1) r c) by (unfold place; lia).
    destruct (IH (l0 + 1) (fun j => if j =? u32 (place l0 r c) then true else a j) ltac:(lia) ltac:(lia)) as (a' & E & M). exists a'. split; [exact E |].
    intros j. rewrite (M j). destruct (Z.eqb_spec j (u32 (place l0 r c))) as [Q | Q].
    + split; [intros _; right; exists l0, r, c; split; [split; [lia | split; reflexivity] | exact Q] | auto].
    + split; (intros [X | (l & r' & c' & (Q1 & -> & ->) & E')]; [left; exact X | right; exists l, r, c; split; [split; [| split; reflexivity] | exact E']]).
      * lia.
      * destruct (Z.eq_dec l l0) as [-> |]; [contradiction | lia].
Qed.
Lemma marked_more : forall D E a b c, marked D a b -> marked E b c -> marked (fun l r q => D l r q \/ E l r q) a c.
Proof.
  intros D E a b c M N j. rewrite (N j), (M j). split.
  - intros [[X | (l & r & q & X & Y)] | (l & r & q & X & Y)]; [left; exact X | right; exists l, r, q; auto | right; exists l, r, q; auto].
  - intros [X | (l & r & q & [X | X] & Y)]; [left; left; exact X | left; right; exists l, r, q; auto | right; exists l, r, q; auto].
Qed.
Lemma marked_same : forall (D E : Z -> Z -> Z -> Prop) a b, (forall l r c, D l r c <-> E l r c) -> marked D a b -> marked E a b.
Proof.
  intros D E a b S M j. rewrite (M j). split; (intros [X | (l & r & c & X & Y)]; [left; exact X | right; exists l, r, c; split; [apply S; exact X | exact Y]]).
Qed.
Lemma marked_none : forall (D : Z -> Z -> Z -> Prop) a, (forall l r c, ~ D l r c) -> marked D a a.
Proof. intros D a N j. split; [auto |]. intros [X | (l & r & c & X & _)]; [exact X | destruct (N l r c X)]. Qed.

Lemma comps_marked : forall lays r, 0 <= r < R -> Z.of_nat lays <= L -> forall k c0 a, 0 <= c0 -> c0 + Z.of_nat k <= C ->
  exists a', mark_comps (SL * L) SL lays k (u32 (place 0 r c0)) a = Some a' /\ marked (fun l r' c => 0 <= l < Z.of_nat lays /\ r' = r /\ c0 <= c < c0 + Z.of_nat k) a a'.
Proof.
  intros lays r Hr Hl. induction k as [| k IH]; intros c0 a H0 H1; cbn [mark_comps].
  - exists a. split; [reflexivity |]. apply marked_none. intros l r' c (_ & _ & Q). lia.
  - destruct (layers_marked r c0 Hr ltac:(lia) lays 0 a ltac:(lia) ltac:(lia)) as (b & E & M). rewrite E. rewrite u32_step. replace (place 0 r c0 + 1) with (place 0 r (c0 + 1)) by (unfold place; lia).
    destruct (IH (c0 + 1) b ltac:(lia) ltac:(lia)) as (a' & E' & M'). exists a'. split; [exact E' |]. eapply marked_same; [| exact (marked_more _ _ _ _ _ M M')].
    intros l r' c. cbn beta. clear - H0. lia.
Qed.
Lemma ress_marked : forall lays comps c0, Z.of_nat lays <= L -> (comps <> 0%nat -> 0 <= c0 /\ c0 + Z.of_nat comps <= C) -> forall k r0 a, 0 <= r0 -> r0 + Z.of_nat k <= R ->
  exists a', mark_ress (SL * L) SL C c0 lays comps k (u32 (C * r0)) a = Some a' /\ marked (fun l r c => 0 <= l < Z.of_nat lays /\ r0 <= r < r0 + Z.of_nat k /\ c0 <= c < c0 + Z.of_nat comps) a a'.
Proof.
  intros lays comps c0 Hl Hc. induction k as [| k IH]; intros r0 a H0 H1; cbn [mark_ress].
  - exists a. split; [reflexivity |]. apply marked_none. intros l r' c (_ & Q & _). lia.
  - assert (X : exists b, mark_comps (SL * L) SL lays comps (u32 (u32 (C * r0) + c0)) a = Some b /\ marked (fun l r c => 0 <= l < Z.of_nat lays /\ r = r0 /\ c0 <= c < c0 + Z.of_nat comps) a b).
    { destruct comps as [| cs]; [exists a; split; [reflexivity |]; apply marked_none; intros l r c (_ & _ & Q); lia |]. destruct (Hc ltac:(discriminate)) as [Q1 Q2].
      rewrite u32_step. replace (C * r0 + c0) with (place 0 r0 c0) by (unfold place; lia). apply comps_marked; lia. }
    destruct X as (b & -> & M). rewrite u32_step. replace (C * r0 + C) with (C * (r0 + 1)) by lia.
    destruct (IH (r0 + 1) b ltac:(lia) ltac:(lia)) as (a' & E' & M'). exists a'. split; [exact E' |]. eapply marked_same; [| exact (marked_more _ _ _ _ _ M M')].
    intros l r c. cbn beta. clear - H0. lia.
Qed.

(** The packets of a progression, and of those of a tile. *)
Definition packet_of (t : Z) (p : poc) (l r c : Z) : Prop :=
  o_tile p = u32 (t + 1) /\ 0 <= l < Z.min (o_lay1 p) L /\ o_res0 p <= r < Z.min (o_res1 p) R /\ o_comp0 p <= c < Z.min (o_comp1 p) C.
Definition poc_ok (p : poc) : Prop := 0 <= o_res0 p /\ 0 <= o_comp0 p.

Lemma pocs_marked : forall t ps a, Forall poc_ok ps ->
  exists a', mark_pocs (SL * L) t R C L ps a = Some a' /\ marked (fun l r c => exists p, In p ps /\ packet_of t p l r c) a a'.
Proof.
  intros t. induction ps as [| p ps IH]; intros a H; cbn [mark_pocs].
  - exists a. split; [reflexivity |]. apply marked_none. intros l r c (p & [] & _).
  - inversion H as [| ? ? [P1 P2] Hs]; subst. rewrite (u32_id (R * C)) by nia.
    assert (X : exists b, (if u32 (t + 1) =? o_tile p then mark_ress (SL * L) SL C (o_comp0 p) (times 0 (Z.min (o_lay1 p) L)) (times (o_comp0 p) (Z.min (o_comp1 p) C)) (times (o_res0 p) (Z.min (o_res1 p) R)) (u32 (C * o_res0 p)) a else Some a) = Some b /\
              marked (packet_of t p) a b).
    { destruct (Z.eqb_spec (u32 (t + 1)) (o_tile p)) as [Q | Q]; [| exists a; split; [reflexivity |]; apply marked_none; intros l r c (X & _); congruence].
      destruct (Z.leb_spec R (o_res0 p)) as [Q2 | Q2].
      - unfold times at 3. replace (Z.to_nat (Z.min (o_res1 p) R - o_res0 p)) with 0%nat by lia. exists a. split; [reflexivity |]. apply marked_none. intros l r c (_ & _ & X & _). lia.
      - destruct (ress_marked (times 0 (Z.min (o_lay1 p) L)) (times (o_comp0 p) (Z.min (o_comp1 p) C)) (o_comp0 p) ltac:(unfold times; lia) ltac:(unfold times; lia)
          (times (o_res0 p) (Z.min (o_res1 p) R)) (o_res0 p) a P1 ltac:(unfold times; lia)) as (b & E & M).
        exists b. split; [exact E |]. eapply marked_same; [| exact M]. intros l r c. unfold packet_of, times. clear - Q P1 P2 Q2. split; intros; intuition lia. }
    destruct X as (b & -> & M). destruct (IH b Hs) as (a' & E' & M'). exists a'. split; [exact E' |]. eapply marked_same; [| exact (marked_more _ _ _ _ _ M M')].
    intros l r c. cbn beta. split.
    + intros [X | (q & I & X)]; [exists p; split; [left; reflexivity | exact X] | exists q; split; [right; exact I | exact X]].
    + intros (q & [-> | I] & X); [left; exact X | right; exists q; split; assumption].
Qed.

(** ** The loops that look *)
Definition seen (D : Z -> Z -> Z -> Prop) (a : cells) (loss loss' : bool) : Prop :=
  loss' = false <-> loss = false /\ forall l r c, D l r c -> a (u32 (place l r c)) = true.
Lemma comps_seen : forall l r a, 0 <= l < L -> 0 <= r < R -> forall k c0 loss, 0 <= c0 -> c0 + Z.of_nat k <= C ->
  exists loss', look_comps (SL * L) k (u32 (place l r c0)) a loss = Some (u32 (place l r (c0 + Z.of_nat k)), loss') /\
    seen (fun l' r' c => l' = l /\ r' = r /\ c0 <= c < c0 + Z.of_nat k) a loss loss'.
Proof.
  intros l r a Hl Hr. induction k as [| k IH]; intros c0 loss H0 H1; cbn [look_comps].
  - exists loss. split; [rewrite Z.add_0_r; reflexivity |]. split; [intros X; split; [exact X |]; intros l' r' c (_ & _ & Q); lia | intros [X _]; exact X].
  - rewrite place_mark by lia. rewrite u32_step. replace (place l r c0 + 1) with (place l r (c0 + 1)) by (unfold place; lia).
    destruct (IH (c0 + 1) (loss || negb (a (u32 (place l r c0)))) ltac:(lia) ltac:(lia)) as (loss' & E & M). exists loss'. split; [rewrite E; do 3 f_equal; f_equal; lia |].
    unfold seen in *. rewrite M, orb_false_iff, negb_false_iff. split.
    + intros [[X Y] N]. split; [exact X |]. intros l' r' c (-> & -> & Q). destruct (Z.eq_dec c c0) as [-> | D]; [exact Y | apply N; split; [reflexivity | split; [reflexivity | lia]]].
    + intros [X N]. split; [split; [exact X |] |]; [apply N | intros l' r' c (-> & -> & Q); apply N]; (split; [reflexivity | split; [reflexivity | lia]]).
Qed.
Lemma ress_seen : forall l a, 0 <= l < L -> forall k r0 loss, 0 <= r0 -> r0 + Z.of_nat k <= R ->
  exists loss', look_ress (SL * L) (Z.to_nat C) k (u32 (place l r0 0)) a loss = Some (u32 (place l (r0 + Z.of_nat k) 0), loss') /\
    seen (fun l' r c => l' = l /\ r0 <= r < r0 + Z.of_nat k /\ 0 <= c < C) a loss loss'.
Proof.
  intros l a Hl. induction k as [| k IH]; intros r0 loss H0 H1; cbn [look_ress].
  - exists loss. split; [rewrite Z.add_0_r; reflexivity |]. split; [intros X; split; [exact X |]; intros l' r' c (_ & Q & _); lia | intros [X _]; exact X].
  - destruct (comps_seen l r0 a Hl ltac:(lia) (Z.to_nat C) 0 loss ltac:(lia) ltac:(lia)) as (l1 & E1 & M1). rewrite E1. replace (place l r0 (0 + Z.of_nat (Z.to_nat C))) with (place l (r0 + 1) 0) by (unfold place; lia).
    destruct (IH (r0 + 1) l1 ltac:(lia) ltac:(lia)) as (l2 & E2 & M2). exists l2. split; [rewrite E2; do 3 f_equal; f_equal; lia |].
    unfold seen in *. rewrite M2, M1. split.
    + intros [[X N1] N2]. split; [exact X |]. intros l' r c (-> & Q & Q2). destruct (Z.eq_dec r r0) as [-> | D]; [apply N1 | apply N2]; (split; [reflexivity | split; [try reflexivity; lia | lia]]).
    + intros [X N]. split; [split; [exact X |] |]; intros l' r c (-> & Q & Q2); apply N; (split; [reflexivity | split; lia]).
Qed.
Lemma lays_seen : forall a k l0 loss, 0 <= l0 -> l0 + Z.of_nat k <= L ->
  exists loss', look_lays (SL * L) (Z.to_nat C) (Z.to_nat R) k (u32 (place l0 0 0)) a loss = Some (u32 (place (l0 + Z.of_nat k) 0 0), loss') /\
    seen (fun l r c => l0 <= l < l0 + Z.of_nat k /\ 0 <= r < R /\ 0 <= c < C) a loss loss'.
Proof.
  intros a. induction k as [| k IH]; intros l0 loss H0 H1; cbn [look_lays].
  - exists loss. split; [rewrite Z.add_0_r; reflexivity |]. split; [intros X; split; [exact X |]; intros l' r' c (Q & _); lia | intros [X _]; exact X].
  - destruct (ress_seen l0 a ltac:(lia) (Z.to_nat R) 0 loss ltac:(lia) ltac:(lia)) as (l1 & E1 & M1). rewrite E1. replace (place l0 (0 + Z.of_nat (Z.to_nat R)) 0) with (place (l0 + 1) 0 0) by (unfold place; rewrite Z2Nat.id; lia).
    destruct (IH (l0 + 1) l1 ltac:(lia) ltac:(lia)) as (l2 & E2 & M2). exists l2. split; [rewrite E2; do 3 f_equal; f_equal; lia |].
    unfold seen in *. rewrite M2, M1. split.
    + intros [[X N1] N2]. split; [exact X |]. intros l r c (Q & Q1 & Q2). destruct (Z.eq_dec l l0) as [-> | D]; [apply N1 | apply N2]; (split; [try reflexivity; lia | split; lia]).
    + intros [X N]. split; [split; [exact X |] |]; intros l r c (Q & Q1 & Q2); apply N; (split; [lia | split; lia]).
Qed.

(** The answer: each cell is marked for some packet, maybe another one with the same index. *)
Lemma check_spec : forall t ps, ps <> [] -> Forall poc_ok ps ->
  exists ok, check_poc_val ps t R C L = Some ok /\
    (ok = true <-> forall l r c, 0 <= l < L -> 0 <= r < R -> 0 <= c < C ->
       exists p l' r' c', In p ps /\ packet_of t p l' r' c' /\ u32 (place l r c) = u32 (place l' r' c')).
Proof.
  intros t ps Hn Hp. unfold check_poc_val. destruct ps as [| p0 ps0] eqn:Eps; [contradiction |]. rewrite <- Eps in *. clear Eps. rewrite (u32_id (R * C)) by nia.
  destruct (pocs_marked t ps (fun _ => false) Hp) as (a & E & M). rewrite E. destruct (lays_seen a (Z.to_nat L) 0 false ltac:(lia) ltac:(lia)) as (loss & E2 & M2).
  change (u32 (place 0 0 0)) with 0 in E2. rewrite E2. exists (negb loss). split; [reflexivity |]. rewrite negb_true_iff. unfold seen in M2. rewrite M2, Z2Nat.id by lia. split.
  - intros [_ N] l r c Hl Hr Hc. specialize (N l r c (conj Hl (conj Hr Hc))). apply M in N. destruct N as [X | (l' & r' & c' & (p & I & Q) & X)]; [discriminate X |]. exists p, l', r', c'. split; [exact I |]. split; assumption.
  - intros N. split; [reflexivity |]. intros l r c (Hl & Hr & Hc). destruct (N l r c Hl Hr Hc) as (p & l' & r' & c' & I & Q & X). apply M. right. exists l', r', c'. split; [exists p; split; assumption | exact X].
Qed.
Lemma place_inj : SL * L <= 2 ^ 32 -> forall l r c l' r' c', 0 <= l < L -> 0 <= r < R -> 0 <= c < C -> 0 <= l' < L -> 0 <= r' < R -> 0 <= c' < C ->
  u32 (place l r c) = u32 (place l' r' c') -> l = l' /\ r = r' /\ c = c'.
Proof.
  intros B l r c l' r' c' H1 H2 H3 H4 H5 H6 E. pose proof (place_in l r c H1 H2 H3). pose proof (place_in l' r' c' H4 H5 H6). rewrite !u32_id in E by lia. unfold place in E.
  assert (E1 : (l * R + r) * C + c = (l' * R + r') * C + c') by nia.
  assert (X : l * R + r = l' * R + r' /\ c = c').
  { assert (l * R + r = l' * R + r'); [| split; nia]. assert (~ (l * R + r < l' * R + r')) by nia. assert (~ (l' * R + r' < l * R + r)) by nia. lia. }
  destruct X as [X ->]. assert (~ (l < l')) by nia. assert (~ (l' < l)) by nia. split; [lia |]. split; [nia | reflexivity].
Qed.
End Poc.
