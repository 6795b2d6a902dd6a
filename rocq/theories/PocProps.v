(** C81: progression order changes of the encoder. *)

From Coq Require Import ZArith List Bool Lia.
From Verif Require Import Ints PocModel PocProofs.
Import ListNotations.
Local Open Scope Z_scope.

(** ** Statements *)

(** Packets of layer [l], resolution [r], component [c] are in the progression [p]. *)
Definition holds (p : poc) (l r c : Z) : Prop := l < o_lay1 p /\ o_res0 p <= r < o_res1 p /\ o_comp0 p <= c < o_comp1 p.
(** Every packet is in one of the progressions. *)
Definition complete (nres ncomps nlays : Z) (ps : list poc) : Prop :=
  forall l r c, 0 <= l < nlays -> 0 <= r < nres -> 0 <= c < ncomps -> exists p, In p ps /\ holds p l r c.
Definition of_tile (t : Z) (ps : list poc) : list poc := filter (fun p => o_tile p =? t + 1) ps.
Definition sizes (nres ncomps nlays : Z) : Prop := 0 < nres <= 33 /\ 0 < ncomps <= 16384 /\ 0 < nlays <= 65535.

(** Nothing is read or written outside the array, and the answer is whether the
    progressions of the tile have every packet, if there are at most 2^32 of them. *)
Theorem c81_check : forall ps t R C L, sizes R C L -> 0 <= t < 2 ^ 32 - 1 -> ps <> [] -> Forall poc_ok ps ->
  exists ok, check_poc_val ps t R C L = Some ok /\ (R * C * L <= 2 ^ 32 -> (ok = true <-> complete R C L (of_tile t ps))).
Proof.
  intros ps t R C L (SR & SC & Sl) Ht Hn Hp. destruct (check_spec R C L ltac:(lia) ltac:(lia) ltac:(lia) ltac:(nia) t ps Hn Hp) as (ok & E & Q). exists ok. split; [exact E |]. intros B. rewrite Q. split.
  - intros N l r c Hl Hr Hc. destruct (N l r c Hl Hr Hc) as (p & l' & r' & c' & I & (T & X1 & X2 & X3) & U). rewrite Forall_forall in Hp. destruct (Hp p I) as [P1 P2].
    destruct (place_inj R C L ltac:(lia) ltac:(lia) ltac:(lia) ltac:(nia) B l r c l' r' c' Hl Hr Hc ltac:(lia) ltac:(lia) ltac:(lia) U) as (-> & -> & ->).
    exists p. split; [| unfold holds; lia]. unfold of_tile. apply filter_In. split; [exact I |]. rewrite u32_id in T by lia. apply Z.eqb_eq. exact T.
  - intros N l r c Hl Hr Hc. destruct (N l r c Hl Hr Hc) as (p & I & H). unfold of_tile in I. apply filter_In in I. destruct I as [I T]. apply Z.eqb_eq in T. exists p, l, r, c. split; [exact I |].
    split; [| reflexivity]. unfold packet_of. rewrite u32_id by lia. unfold holds in H. split; [exact T |]. lia.
Qed.

Lemma tile_pocs_first : forall all t C ps done rest, 0 <= t < 2 ^ 32 - 1 -> all = firstn (length done) all ++ ps ++ rest -> Forall (fun p => o_tile p = t + 1 /\ o_comp0 p < C) ps ->
  (length done <= length all)%nat ->
  tile_pocs all t C (ps ++ rest) done = tile_pocs all t C rest (done ++ map (fun q => Poc (o_tile q) (o_res0 q) (o_res1 q) (o_comp0 q) (Z.min (o_comp1 q) C) (o_lay1 q)) ps).
Proof.
  intros all t C. induction ps as [| p ps IH]; intros done rest Ht E F L; cbn [app map]; [rewrite app_nil_r; reflexivity |]. inversion F as [| ? ? [F1 F2] Fs]; subst. cbn [tile_pocs].
  rewrite u32_id, F1, Z.eqb_refl by lia.
  assert (N : nth_error all (length done) = Some p). { rewrite E. rewrite nth_error_app2; rewrite firstn_length; [| lia]. replace (length done - Nat.min (length done) (length all))%nat with 0%nat by lia. reflexivity. }
  rewrite N. destruct (Z.leb_spec C (o_comp0 p)); [lia |]. rewrite IH; [rewrite <- app_assoc, F1; reflexivity | exact Ht | | exact Fs |].
  - rewrite app_length. cbn [length]. rewrite Nat.add_1_r. assert (Q : firstn (S (length done)) all = firstn (length done) all ++ [p]).
    { rewrite E at 1. rewrite firstn_app, firstn_length. rewrite firstn_all2 by (rewrite firstn_length; lia). replace (S (length done) - Nat.min (length done) (length all))%nat with 1%nat by lia. reflexivity. }
    rewrite Q, <- app_assoc. exact E.
  - rewrite app_length. cbn [length]. assert (nth_error all (length done) <> None) by congruence. apply nth_error_Some in H0. lia.
Qed.
Lemma tile_pocs_rest : forall all t C rest done, 0 <= t < 2 ^ 32 - 1 -> Forall (fun p => o_tile p <> t + 1) rest -> tile_pocs all t C rest done = Some (Some done).
Proof.
  intros all t C. induction rest as [| p rest IH]; intros done Ht F; [reflexivity |]. inversion F; subst. cbn [tile_pocs]. rewrite u32_id by lia. destruct (Z.eqb_spec (t + 1) (o_tile p)); [lia |]. apply IH; assumption.
Qed.

(** If the entries of the tile come first, the tile has them, cut to the components there
    are; and if the check finds every packet, the tile has every packet. *)
Theorem c81_setup : forall ps rest t R C L, sizes R C L -> 0 <= t < 2 ^ 32 - 1 -> ps <> [] -> Forall poc_ok (ps ++ rest) ->
  Forall (fun p => o_tile p = t + 1 /\ o_comp0 p < C) ps -> Forall (fun p => o_tile p <> t + 1) rest ->
  exists qs, setup_pocs (ps ++ rest) t R C L = Some (Some qs) /\
    Forall2 (fun p q => o_tile q = o_tile p /\ forall l r c, c < C -> (holds q l r c <-> holds p l r c)) ps qs /\
    (R * C * L <= 2 ^ 32 -> check_poc_val (ps ++ rest) t R C L = Some true -> complete R C L qs).
Proof.
  intros ps rest t R C L Sz Ht Hn Hp F1 F2. set (cutp := fun q => Poc (o_tile q) (o_res0 q) (o_res1 q) (o_comp0 q) (Z.min (o_comp1 q) C) (o_lay1 q)).
  assert (Ne : ps ++ rest <> []) by (destruct ps; [contradiction | discriminate]).
  destruct (c81_check (ps ++ rest) t R C L Sz Ht Ne Hp) as (ok & E & Q). exists (map cutp ps). split.
  - unfold setup_pocs. rewrite (tile_pocs_first (ps ++ rest) t C ps [] rest Ht eq_refl F1 ltac:(cbn; lia)). cbn [app]. fold cutp. rewrite tile_pocs_rest by assumption. rewrite E.
    destruct ps; [contradiction | reflexivity].
  - assert (H : forall p l r c, c < C -> (holds (cutp p) l r c <-> holds p l r c)) by (intros p l r c Hc; unfold holds, cutp; cbn [o_lay1 o_res0 o_res1 o_comp0 o_comp1]; lia).
    split.
    + clear - H. induction ps; constructor; [split; [reflexivity | apply H] | assumption].
    + intros B Et. assert (ok = true) by congruence. apply (proj1 (Q B)) in H0. intros l r c Hl Hr Hc. destruct (H0 l r c Hl Hr Hc) as (p & I & X). unfold of_tile in I. apply filter_In in I. destruct I as [I T].
      apply Z.eqb_eq in T. apply in_app_or in I. destruct I as [I | I]; [| rewrite Forall_forall in F2; destruct (F2 p I T)]. exists (cutp p). split; [apply in_map; exact I | apply H; [lia | exact X]].
Qed.

(** ** Examples *)
Definition ex_pocs : list poc := [Poc 1 0 1 0 3 2; Poc 1 1 6 0 9 2; Poc 2 0 6 0 3 2].
Example c81_ex : check_poc_val ex_pocs 0 6 3 2 = Some true /\ check_poc_val ex_pocs 0 6 3 3 = Some false /\
  setup_pocs ex_pocs 0 6 3 2 = Some (Some [Poc 1 0 1 0 3 2; Poc 1 1 6 0 3 2]).
Proof. split; [| split]; vm_compute; reflexivity. Qed.
Example c81_ex_in : sizes 6 3 2 /\ Forall poc_ok ex_pocs.
Proof. split; [unfold sizes; lia |]. repeat (constructor; [split; cbn; lia |]). constructor. Qed.

(** The second tile gets the entry of the first one, so packets are missing, although the
    check, whose answer is not used, found all of them. *)
Theorem c81_tiles_refuted : exists qs, check_poc_val ex_pocs 1 6 3 2 = Some true /\ setup_pocs ex_pocs 1 6 3 2 = Some (Some qs) /\ ~ complete 6 3 2 qs.
Proof.
  exists [Poc 1 0 1 0 3 2]. split; [vm_compute; reflexivity |]. split; [vm_compute; reflexivity |]. intros N. destruct (N 0 1 0 ltac:(lia) ltac:(lia) ltac:(lia)) as (p & [<- | []] & X). unfold holds in X. cbn in X. lia.
Qed.
(** Nor does the answer change anything. *)
Theorem c81_missing_refuted : exists qs, check_poc_val [Poc 1 0 1 0 3 2] 0 6 3 2 = Some false /\ setup_pocs [Poc 1 0 1 0 3 2] 0 6 3 2 = Some (Some qs) /\ ~ complete 6 3 2 qs.
Proof.
  exists [Poc 1 0 1 0 3 2]. split; [vm_compute; reflexivity |]. split; [vm_compute; reflexivity |]. intros N. destruct (N 0 1 0 ltac:(lia) ltac:(lia) ltac:(lia)) as (p & [<- | []] & X). unfold holds in X. cbn in X. lia.
Qed.
(** With more packets indices wrap: the last layer is missing and not noticed. *)
Theorem c81_wrap_refuted : sizes 32 16384 8193 /\ check_poc_val [Poc 1 0 32 0 16384 8192] 0 32 16384 8193 = Some true /\ ~ complete 32 16384 8193 (of_tile 0 [Poc 1 0 32 0 16384 8192]).
Proof.
  assert (Sz : sizes 32 16384 8193) by (unfold sizes; lia). split; [exact Sz |]. split.
  - destruct (check_spec 32 16384 8193 ltac:(lia) ltac:(lia) ltac:(lia) ltac:(lia) 0 [Poc 1 0 32 0 16384 8192] ltac:(discriminate)) as (ok & E & Q).
    { constructor; [split; cbn; lia | constructor]. }
    rewrite E. f_equal. apply Q. intros l r c Hl Hr Hc. exists (Poc 1 0 32 0 16384 8192).
    destruct (Z.eq_dec l 8192) as [-> | D].
    + exists 0, r, c. split; [left; reflexivity |]. split; [unfold packet_of; cbn [o_tile o_lay1 o_res0 o_res1 o_comp0 o_comp1]; split; [reflexivity | lia] |].
      unfold place, u32. replace (8192 * (32 * 16384) + r * 16384 + c) with (0 * (32 * 16384) + r * 16384 + c + 1 * 2 ^ 32) by lia. apply Z.mod_add. lia.
    + exists l, r, c. split; [left; reflexivity |]. split; [unfold packet_of; cbn [o_tile o_lay1 o_res0 o_res1 o_comp0 o_comp1]; split; [reflexivity | lia] | reflexivity].
  - intros N. destruct (N 8192 0 0 ltac:(lia) ltac:(lia) ltac:(lia)) as (p & [<- | []] & X). unfold holds in X. cbn in X. lia.
Qed.

Print Assumptions c81_check.
Print Assumptions c81_setup.
Print Assumptions c81_wrap_refuted.
