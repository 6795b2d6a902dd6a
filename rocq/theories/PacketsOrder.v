(** In every progression the packets of a precinct come layer after layer. *)

From Coq Require Import ZArith List Lia Bool Sorted.
From Verif Require Import PiModel PiSpec PacketsModel PacketsProofs.
Import ListNotations.
Local Open Scope Z_scope.

Lemma keys_layers : forall T o q q', place_of q = place_of q' -> lexlt (key T o q) (key T o q') -> layer_no q < layer_no q'.
Proof.
  intros T o [[[l r] c] k] [[[l' r'] c'] k'] E H. cbn [place_of] in E. assert (r' = r) as -> by congruence. assert (c' = c) as -> by congruence. assert (k' = k) as -> by congruence.
  cbn [layer_no]. destruct o; cbn [key lexlt] in H; lia.
Qed.

Lemma in_place : forall p ps q, In q (at_place p ps) <-> In q ps /\ place_of q = p.
Proof.
  intros p ps q. unfold at_place. rewrite filter_In. unfold here_at. destruct (same_place_spec (place_of q) p); split; intros [A B]; split; try assumption; try discriminate; try contradiction; reflexivity.
Qed.

Lemma ordered_layers : forall T o ps p, ordered T o ps -> StronglySorted Z.lt (map layer_no (at_place p ps)).
Proof.
  intros T o ps p H. induction H as [| q ps H IH F]; [constructor |]. rewrite at_cons. destruct (same_place_spec (place_of q) p) as [E | E]; [| exact IH].
  cbn [map]. constructor; [exact IH |]. rewrite Forall_map. apply Forall_forall. intros q' Hq'. apply in_place in Hq'. destruct Hq' as [I E'].
  rewrite Forall_forall in F. apply (keys_layers T o); [congruence | apply F, I].
Qed.

Lemma sorted_range : forall l a, StronglySorted Z.lt l -> forall b, (forall x, In x l <-> a <= x < b) -> 0 <= a -> l = map Z.of_nat (seq (Z.to_nat a) (length l)).
Proof.
  induction l as [| y l IH]; intros a H b HI Ha; [reflexivity |]. inversion H as [| ? ? H1 H2]; subst. cbn [length seq map].
  assert (y = a) as ->.
  { assert (a <= y < b) by (apply HI; left; reflexivity). assert (In a (y :: l)) as [E | E] by (apply HI; lia); [exact E |]. rewrite Forall_forall in H2. specialize (H2 _ E). lia. }
  rewrite Z2Nat.id by exact Ha. f_equal. replace (S (Z.to_nat a)) with (Z.to_nat (a + 1)) by lia. apply (IH (a + 1) H1 b); [| lia].
  intros x. rewrite Forall_forall in H2. split.
  - intros Hx. specialize (H2 x Hx). assert (a <= x < b) by (apply HI; right; exact Hx). lia.
  - intros Hx. assert (In x (a :: l)) as [E | E] by (apply HI; lia); [lia | exact E].
Qed.

(** Layer after layer at every place. *)
Definition in_turn (ps : list packet) : Prop := forall p, map layer_no (at_place p ps) = map Z.of_nat (seq 0 (length (at_place p ps))).

Lemma sequence_in_turn : forall T vs done parts, sequence T done vs parts -> in_turn done -> in_turn (done ++ concat parts).
Proof.
  intros T vs done parts H. induction H as [done | done v vs part parts O I H IH]; intros HD; cbn [concat]; [rewrite app_nil_r; exact HD |].
  rewrite app_assoc. apply IH. intros [[r c] k]. set (p := (r, c, k)). unfold at_place. rewrite filter_app, map_app, app_length, seq_app, map_app. fold (at_place p done) (at_place p part).
  rewrite (HD p) at 1. f_equal. set (n := length (at_place p done)). cbn [Nat.add].
  assert (Hdone : forall l, In (l, r, c, k) done <-> 0 <= l < Z.of_nat n).
  { intros l. assert (X : In (l, r, c, k) done <-> In l (map layer_no (at_place p done))).
    { rewrite in_map_iff. split.
      - intros J. exists (l, r, c, k). split; [reflexivity |]. apply in_place. split; [exact J | reflexivity].
      - intros ([[[l' r'] c'] k'] & E & J). apply in_place in J. destruct J as [J E2]. cbn [layer_no place_of] in *. unfold p in E2. assert (l' = l) by congruence. assert (r' = r) by congruence. assert (c' = c) by congruence. assert (k' = k) by congruence. subst. exact J. }
    rewrite X, (HD p), in_map_iff. fold n. split.
    - intros (i & E & J). apply in_seq in J. lia.
    - intros J. exists (Z.to_nat l). split; [lia |]. apply in_seq. lia. }
  assert (Hpart : forall l, In l (map layer_no (at_place p part)) <-> In (l, r, c, k) part).
  { intros l. rewrite in_map_iff. split.
    - intros ([[[l' r'] c'] k'] & E & J). apply in_place in J. destruct J as [J E2]. cbn [layer_no place_of] in *. unfold p in E2. assert (l' = l) by congruence. assert (r' = r) by congruence. assert (c' = c) by congruence. assert (k' = k) by congruence. subst. exact J.
    - intros J. exists (l, r, c, k). split; [reflexivity |]. apply in_place. split; [exact J | reflexivity]. }
  assert (G : exists m, forall l, PiSpec.within T v (l, r, c, k) <-> 0 <= l < m).
  { assert (D : (0 <= c < Z.of_nat (length (t_comps T)) /\ 0 <= r < nres (par T c) /\ 0 <= k < wide T c r * high T c r /\ v_res0 v <= r < v_res1 v /\ v_comp0 v <= c < v_comp1 v) \/
      ~ (0 <= c < Z.of_nat (length (t_comps T)) /\ 0 <= r < nres (par T c) /\ 0 <= k < wide T c r * high T c r /\ v_res0 v <= r < v_res1 v /\ v_comp0 v <= c < v_comp1 v)) by lia.
    destruct D as [D | D]; [exists (Z.min (t_layers T) (v_lay1 v)) | exists 0]; intros l; unfold PiSpec.within, valid; split; intros J; try lia; exfalso; apply D; tauto. }
  destruct G as [m G].
  assert (R : forall l, In l (map layer_no (at_place p part)) <-> Z.of_nat n <= l < m).
  { intros l. rewrite Hpart, I, G, Hdone. lia. }
  pose proof (sorted_range _ _ (ordered_layers T (v_order v) part p O) m R ltac:(lia)) as E. rewrite map_length, Nat2Z.id in E. exact E.
Qed.
