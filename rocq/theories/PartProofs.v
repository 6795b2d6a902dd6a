(** Proofs about tile-parts: reading back a conforming sequence (C60). *)

From Coq Require Import ZArith List Bool Lia FinFun.
From Verif Require Import Ints CioModel HdrModel HdrBytes PartModel PartSpec.
Import ListNotations.
Local Open Scope Z_scope.

Lemma u32_small : forall v, 0 <= v < 2 ^ 32 -> u32 v = v.
Proof. intros v H. unfold u32. apply Z.mod_small. exact H. Qed.

(** ** Streams *)

Definition at_ (s : stream) (l : list Z) : Prop :=
  s_off s = s_pos s /\ 0 <= s_pos s <= size_of s /\ rest s = l.

Lemma at_left : forall s l, at_ s l -> left s = len l.
Proof.
  intros s l (HO & HP & HR). unfold left, len. rewrite HO, <- HR. unfold rest. rewrite skipn_length. unfold size_of in *. lia.
Qed.

Lemma at_eq : forall s s' , s_off s = s_pos s -> s_src s' = s_src s -> s_off s' = s_pos s' -> seek (s_off s) s' = s.
Proof. intros [src pos off] [src' pos' off'] H1 H2 H3. cbn in *. subst. unfold seek. cbn. f_equal; lia. Qed.

Lemma skipn_app_len : forall {A} (a b : list A), skipn (length a) (a ++ b) = b.
Proof. induction a; intros b; [reflexivity |]. cbn. apply IHa. Qed.
Lemma firstn_app_len : forall {A} (a b : list A), firstn (length a) (a ++ b) = a.
Proof. induction a; intros b; [reflexivity |]. cbn. f_equal. apply IHa. Qed.
Lemma skipn_add : forall {A} (i j : nat) (l : list A), skipn i (skipn j l) = skipn (j + i) l.
Proof. intros A i j. induction j as [| j IH]; intros l; [reflexivity |]. destruct l; cbn [skipn Nat.add]; [destruct i; reflexivity | apply IH]. Qed.

Lemma at_move : forall s a b, at_ s (a ++ b) -> at_ (mkS (s_src s) (s_pos s + len a) (s_off s + len a)) b.
Proof.
  intros s a b (HO & HP & HR). unfold at_, rest, size_of, len in *. cbn [s_src s_pos s_off].
  assert (HL : (length (s_src s) - Z.to_nat (s_pos s) = length a + length b)%nat) by (rewrite <- skipn_length, HR, app_length; reflexivity).
  repeat split; try lia. replace (Z.to_nat (s_pos s + Z.of_nat (length a))) with (Z.to_nat (s_pos s) + length a)%nat by lia.
  rewrite <- skipn_add, HR. apply skipn_app_len.
Qed.

Lemma take_at : forall n s a b, at_ s (a ++ b) -> len a = n ->
  exists s', take n s = (Some a, s') /\ at_ s' b /\ s_src s' = s_src s.
Proof.
  intros n s a b H Hn. exists (mkS (s_src s) (s_pos s + len a) (s_off s + len a)). split; [| split; [apply at_move; exact H | reflexivity]].
  destruct H as (HO & HP & HR). unfold take. rewrite HR, app_length. unfold len in *. subst n.
  rewrite (proj2 (Z.leb_le _ _)) by lia. rewrite Nat2Z.id, firstn_app_len. reflexivity.
Qed.

Lemma skip_at : forall n s a b, at_ s (a ++ b) -> len a = n ->
  exists s', skip n s = Some s' /\ at_ s' b /\ s_src s' = s_src s.
Proof.
  intros n s a b H Hn. exists (mkS (s_src s) (s_pos s + len a) (s_off s + len a)). split; [| split; [apply at_move; exact H | reflexivity]].
  pose proof (at_left _ _ H) as HL. unfold left, len in HL. rewrite app_length in HL. unfold skip, len in *.
  destruct (Z.ltb_spec (size_of s) (s_off s + n)); [lia |]. rewrite andb_false_r. subst n. reflexivity.
Qed.

Lemma len_app : forall {A} (a b : list A), len (a ++ b) = len a + len b.
Proof. intros. unfold len. rewrite app_length. lia. Qed.
Lemma len_be : forall n v, (1 <= n <= 4)%nat -> len (be n v) = Z.of_nat n.
Proof. intros. unfold len. rewrite be_len by assumption. reflexivity. Qed.
Lemma len_nonneg : forall {A} (a : list A), 0 <= len a.
Proof. intros. unfold len. lia. Qed.

Lemma at_nonempty : forall s l, at_ s l -> l <> [] -> (left s =? 0) = false.
Proof.
  intros s l H N. rewrite (at_left _ _ H). apply Z.eqb_neq. destruct l; [contradiction |]. unfold len. cbn [length]. lia.
Qed.

Lemma sot_values : forall t l a b, 0 <= t < 65536 -> 0 <= l < 2 ^ 32 -> 0 <= a < 256 -> 0 <= b < 256 ->
  get_sot_values (be 2 t ++ be 4 l ++ be 1 a ++ be 1 b) = Some (t, l, a, b).
Proof.
  intros t l a b Ht Hl Ha Hb. unfold get_sot_values. rewrite !app_length, !be_len by lia. cbn [Nat.add Nat.eqb negb].
  rewrite rd2, rd4, rd1 by assumption. rewrite <- (app_nil_r (be 1 b)), rd1 by assumption. reflexivity.
Qed.

Lemma be_nonnil : forall n v l, (1 <= n <= 4)%nat -> be n v ++ l <> [].
Proof. intros n v l H X. apply (f_equal (@length Z)) in X. rewrite app_length, be_len in X by lia. cbn in X. lia. Qed.

Lemma body_cons : forall p ps, body (p :: ps) = be 2 SOT ++ skipn 2 (part_bytes p) ++ body ps.
Proof.
  intros p ps. unfold body. cbn [flat_map]. rewrite <- (app_assoc (part_bytes p)), (app_assoc (be 2 SOT)). f_equal.
Qed.

Lemma part_len : forall p, 14 <= len (part_bytes p).
Proof.
  intros p. unfold part_bytes. rewrite !len_app, !len_be by lia. pose proof (len_nonneg (heads_bytes p)). pose proof (len_nonneg (q_data p)). lia.
Qed.
Lemma body_len : forall ps, (length ps <= length (body ps))%nat.
Proof.
  intros ps. unfold body. rewrite app_length. induction ps as [| p ps IH]; [cbn; lia |]. cbn [flat_map length]. rewrite app_length.
  pose proof (part_len p). unfold len in *. lia.
Qed.

Lemma at_src : forall s l, at_ s l -> (length l <= length (s_src s))%nat.
Proof. intros s l (_ & _ & <-). unfold rest. rewrite skipn_length. lia. Qed.

(** ** One tile-part *)

Section Parts.
Context {C : Type}.
Variable handle : Z -> Z -> C -> list Z -> option C.
Variable nb : Z.
Variable wanted : Z -> bool.
Variable strict seekable fails : bool.

Notation tcp := (tcp C).
Notation dec := (dec C).
Notation read_heads := (read_heads handle nb wanted).
Notation read_sod := (read_sod nb strict fails).

Definition with_par (t : tcp) (c : C) : tcp := mkTcp (t_part t) (t_parts t) (t_buf t) (t_bytes t) (t_size t) c.

Lemma states_header : forall m, in_header m -> 0 <= m < 65536 /\ handled m = true /\ (Z.land 16 (states m) =? 0) = false /\
  (m =? SOT) = false /\ (m =? SOD) = false /\ (m =? 32896) = false.
Proof.
  intros m H. unfold in_header in H. cbn [In] in H.
  repeat (destruct H as [H | H]; [subst m; vm_compute; repeat split; try reflexivity; discriminate |]). destruct H.
Qed.

Definition seg_ok (sg : Z * list Z) : Prop := in_header (fst sg) /\ len (snd sg) <= 65533.

Lemma segs_read : forall segs fuel (d : dec) s tail c,
  Forall seg_ok segs -> (length segs < fuel)%nat ->
  at_ s (flat_map seg_bytes segs ++ be 2 SOD ++ tail) ->
  d_state d = 16 -> d_skip d = false -> d_len d < 2 ^ 32 ->
  len (flat_map seg_bytes segs) <= d_len d ->
  after handle (d_cur d) (t_par (d_tcps d (d_cur d))) segs = Some c ->
  exists (d' : dec) s',
    match take 2 s with (None, _) => Fail | (Some b, s) => read_heads fuel (from_be b) d s end = Done (SOD, d', s') /\
    at_ s' tail /\ s_src s' = s_src s /\
    d_state d' = 16 /\ d_cur d' = d_cur d /\ d_can d' = d_can d /\ d_last d' = d_last d /\
    d_len d' = d_len d - len (flat_map seg_bytes segs) /\ d_skip d' = false /\ d_checked d' = d_checked d /\ d_corr d' = d_corr d /\
    forall j, d_tcps d' j = if j =? d_cur d then with_par (d_tcps d j) c else d_tcps d j.
Proof.
  induction segs as [| [m b] segs IH]; intros fuel d s tail c HF Hfuel HA HS HK HB HL HC; (destruct fuel as [| fuel]; [cbn [length] in Hfuel; lia |]).
  - cbn [flat_map app] in HA. destruct (take_at 2 _ _ _ HA (len_be 2 SOD ltac:(lia))) as (s' & E & HA' & HS').
    cbn [after] in HC. injection HC as HC.
    exists d, s'. rewrite E. rewrite be_value_be by (unfold SOD; lia). cbn [PartModel.read_heads]. rewrite Z.eqb_refl.
    split; [reflexivity |]. split; [exact HA' |]. split; [exact HS' |]. split; [exact HS |]. do 3 (split; [reflexivity |]).
    split; [cbn [flat_map]; unfold len; cbn [length]; lia |]. split; [exact HK |]. do 2 (split; [reflexivity |]).
    intros j. destruct (Z.eqb_spec j (d_cur d)) as [-> |]; [| reflexivity]. rewrite <- HC. unfold with_par. destruct (d_tcps d (d_cur d)); reflexivity.
  - inversion HF as [| ? ? [Hm Hb] HF']; subst. cbn [fst snd] in Hm, Hb.
    destruct (states_header m Hm) as (Hm1 & Hm2 & Hm3 & Hm4 & Hm5 & Hm6).
    cbn [flat_map] in HA, HL. unfold seg_bytes at 1 in HA. cbn [fst snd] in HA. rewrite <- !app_assoc in HA.
    destruct (take_at 2 _ _ _ HA (len_be 2 m ltac:(lia))) as (s1 & E1 & HA1 & HS1).
    destruct (take_at 2 _ _ _ HA1 (len_be 2 _ ltac:(lia))) as (s2 & E2 & HA2 & HS2).
    destruct (take_at (len b + 2 - 2) _ _ _ HA2 ltac:(lia)) as (s3 & E3 & HA3 & HS3).
    cbn [after] in HC. destruct (handle m (d_cur d) (t_par (d_tcps d (d_cur d))) b) as [c1 |] eqn:Ec; [| discriminate].
    rewrite E1. rewrite be_value_be by (cbn; lia). cbn [PartModel.read_heads]. rewrite Hm5.
    rewrite (at_nonempty _ _ HA1) by (intros X; apply (f_equal (@length Z)) in X; rewrite app_length, be_len in X by lia; cbn in X; lia).
    rewrite E2. pose proof (len_nonneg b). rewrite be_value_be by (cbn; lia). destruct (Z.ltb_spec (len b + 2) 2); [lia |].
    rewrite Hm6. cbn [andb]. rewrite HS. change (Z.land 16 st_TPH =? 0) with false. cbn [set_len d_state]. rewrite HS, Hm3.
    rewrite E3. unfold read_head. rewrite Hm4, Hm2. cbn [set_len d_tcps d_cur]. rewrite Ec.
    cbn [put set_tcps set_len d_skip]. rewrite HK.
    match goal with |- context [read_heads fuel _ ?d0] => set (d1 := d0) end.
    assert (Hseg : len (seg_bytes (m, b)) = len b + 4).
    { unfold seg_bytes. cbn [fst snd]. rewrite !len_app, !len_be by lia. lia. }
    rewrite len_app, Hseg in HL.
    assert (Elen : d_len d1 = d_len d - (len b + 4)).
    { unfold d1. cbn [put set_tcps set_len d_len]. pose proof (len_nonneg (flat_map seg_bytes segs)). rewrite u32_small by lia. lia. }
    destruct (IH fuel d1 s3 tail c HF' ltac:(cbn [length] in Hfuel; lia) HA3 HS HK ltac:(rewrite Elen; lia) ltac:(rewrite Elen; lia)) as
      (d' & s' & E & K1 & K2 & K3 & K4 & K5 & K6 & K7 & K8 & K9 & K10 & K11).
    { unfold d1. cbn [put set_tcps set_len d_cur d_tcps]. rewrite Z.eqb_refl. cbn [t_par]. exact HC. }
    exists d', s'. split; [exact E |]. split; [exact K1 |]. split; [congruence |]. split; [exact K3 |].
    split; [rewrite K4; reflexivity |]. split; [rewrite K5; reflexivity |]. split; [rewrite K6; reflexivity |].
    split; [rewrite K7, Elen; cbn [flat_map]; rewrite len_app, Hseg; lia |]. split; [exact K8 |]. split; [rewrite K9; reflexivity |]. split; [rewrite K10; reflexivity |].
    intros j. rewrite K11. unfold d1. cbn [put set_tcps set_len d_cur d_tcps]. destruct (Z.eqb_spec j (d_cur d)) as [-> |]; [| reflexivity].
    rewrite ?Z.eqb_refl. reflexivity.
Qed.

Definition closing (t : tcp) (p : part) : bool :=
  let total := if q_of p =? 0 then t_parts t else q_of p in negb (total =? 0) && (total =? q_no p + 1).
Definition counted (t : tcp) (p : part) : tcp :=
  mkTcp (q_no p) (if q_of p =? 0 then t_parts t else q_of p) (t_buf t) (t_bytes t) (t_size t) (t_par t).
Definition enough (p : part) (t : tcp) : Prop :=
  t_part t + 1 = q_no p /\ (t_parts t = 0 \/ q_no p < t_parts t) /\ (q_of p = 0 \/ q_no p < q_of p).
Definition sizes (p : part) : Prop :=
  0 <= q_tile p < nb /\ nb <= 65535 /\ 0 <= q_no p < 256 /\ 0 <= q_of p < 256 /\ Forall seg_ok (q_segs p) /\
  14 + len (heads_bytes p) + len (q_data p) < 2 ^ 32.
Definition idle (d : dec) : Prop :=
  d_state d = 8 /\ d_can d = false /\ d_last d = false /\ d_skip d = false /\ d_corr d = false.

(** After the SOT segment. *)
Lemma sot_read : forall p fuel (d : dec) s tail, sizes p -> idle d -> enough p (d_tcps d (q_tile p)) ->
  at_ s (skipn 2 (part_bytes p) ++ tail) ->
  exists s', read_heads (S fuel) SOT d s =
    (let d1 := mkDec 16 (q_tile p) (closing (d_tcps d (q_tile p)) p) false (2 + len (heads_bytes p) + len (q_data p)) (negb (wanted (q_tile p)))
        (d_checked d) false (fun j => if j =? q_tile p then counted (d_tcps d (q_tile p)) p else d_tcps d j) in
     if negb (wanted (q_tile p)) then match skip (d_len d1) s' with None => Fail | Some s => Done (SOD, d1, s) end
     else match take 2 s' with (None, _) => Fail | (Some b, s) => read_heads fuel (from_be b) d1 s end) /\
    at_ s' (heads_bytes p ++ be 2 SOD ++ q_data p ++ tail) /\ s_src s' = s_src s.
Proof.
  intros p fuel d s tail (Z1 & Z2 & Z3 & Z4 & Z5 & Z6) (I1 & I2 & I3 & I4 & I5) (N1 & N2 & N3) HA.
  assert (EP : skipn 2 (part_bytes p) ++ tail = be 2 10 ++ (be 2 (q_tile p) ++ be 4 (14 + len (heads_bytes p) + len (q_data p)) ++ be 1 (q_no p) ++ be 1 (q_of p)) ++ heads_bytes p ++ be 2 SOD ++ q_data p ++ tail).
  { unfold part_bytes. change 2%nat with (length (be 2 65424)) at 1. rewrite skipn_app_len, <- !app_assoc. reflexivity. }
  rewrite EP in HA.
  destruct (take_at 2 _ _ _ HA (len_be 2 _ ltac:(lia))) as (s1 & E1 & HA1 & HS1).
  destruct (take_at 8 _ _ _ HA1) as (s2 & E2 & HA2 & HS2). { rewrite !len_app, !len_be by lia. reflexivity. }
  exists s2. split; [| split; [exact HA2 | congruence]].
  cbn [PartModel.read_heads]. change (SOT =? SOD) with false. rewrite (at_nonempty _ _ HA) by (apply be_nonnil; lia).
  rewrite E1, be_value_be by (cbn; lia). change (10 <? 2) with false. change (SOT =? 32896) with false. cbn [andb]. rewrite I1.
  change (Z.land 8 st_TPH =? 0) with true. cbv iota. rewrite I1. change (Z.land 8 (states SOT) =? 0) with false. cbv iota.
  change (10 - 2) with 8. rewrite E2. unfold read_head. change (SOT =? SOT) with true. cbv iota. unfold read_sot.
  pose proof (len_nonneg (heads_bytes p)) as L1. pose proof (len_nonneg (q_data p)) as L2.
  rewrite sot_values by lia. destruct (Z.leb_spec nb (q_tile p)); [lia |]. rewrite (proj2 (Z.eqb_eq _ _) N1). cbn [negb].
  destruct (Z.ltb_spec (14 + len (heads_bytes p) + len (q_data p)) 14); [lia |]. rewrite andb_false_r. cbn [andb].
  assert (B1 : negb (t_parts (d_tcps d (q_tile p)) =? 0) && (t_parts (d_tcps d (q_tile p)) <=? q_no p) = false).
  { destruct N2 as [-> | N2]; [reflexivity |]. rewrite (proj2 (Z.leb_gt _ _)) by lia. apply andb_false_r. }
  rewrite B1. rewrite I5, Z.add_0_r.
  assert (B2 : (if q_of p =? 0 then 0 else u32 (q_of p)) = q_of p).
  { destruct (Z.eqb_spec (q_of p) 0) as [-> |]; [reflexivity |]. apply u32_small. lia. }
  rewrite B2.
  assert (B3 : negb (q_of p =? 0) && (q_of p <=? q_no p) = false).
  { destruct N3 as [-> | N3]; [reflexivity |]. rewrite (proj2 (Z.leb_gt _ _)) by lia. apply andb_false_r. }
  rewrite B3, I2, I3. cbn [orb]. rewrite (proj2 (Z.eqb_neq (14 + len (heads_bytes p) + len (q_data p)) 0)) by lia. cbn [orb].
  cbn [d_skip d_len]. rewrite (u32_small (q_no p + 1)) by lia.
  rewrite (u32_small (14 + len (heads_bytes p) + len (q_data p) - 12)) by lia.
  replace (14 + len (heads_bytes p) + len (q_data p) - 12) with (2 + len (heads_bytes p) + len (q_data p)) by lia.
  cbv zeta. unfold closing. cbv zeta.
  destruct (wanted (q_tile p)); cbn [negb]; reflexivity.
Qed.

Definition filled (t : tcp) (p : part) (c : C) : tcp :=
  mkTcp (q_no p) (if q_of p =? 0 then t_parts t else q_of p)
    (match q_data p with [] => t_buf t | _ => Some (t_size t + len (q_data p) + 2) end)
    (t_bytes t ++ q_data p) (t_size t + len (q_data p)) c.

Lemma part_wanted : forall p fuel (d : dec) s tail c, sizes p -> idle d -> enough p (d_tcps d (q_tile p)) ->
  wanted (q_tile p) = true -> (length (q_segs p) < fuel)%nat ->
  after handle (q_tile p) (t_par (d_tcps d (q_tile p))) (q_segs p) = Some c ->
  (t_buf (d_tcps d (q_tile p)) = None -> t_size (d_tcps d (q_tile p)) = 0) -> 0 <= t_size (d_tcps d (q_tile p)) ->
  t_size (d_tcps d (q_tile p)) + len (q_data p) <= 2 ^ 32 - 3 ->
  at_ s (skipn 2 (part_bytes p) ++ tail) ->
  exists (d1 : dec) s1 (d2 : dec) s2,
    read_heads (S fuel) SOT d s = Done (SOD, d1, s1) /\ d_state d1 = 16 /\ d_skip d1 = false /\
    read_sod d1 s1 = Done (d2, s2) /\ at_ s2 tail /\ s_src s2 = s_src s /\
    d_state d2 = 8 /\ d_cur d2 = q_tile p /\ d_can d2 = closing (d_tcps d (q_tile p)) p /\ d_last d2 = false /\
    d_skip d2 = false /\ d_checked d2 = d_checked d /\ d_corr d2 = false /\
    forall j, d_tcps d2 j = if j =? q_tile p then filled (d_tcps d (q_tile p)) p c else d_tcps d j.
Proof.
  intros p fuel d s tail c HZ HI HN HW HF HC HB HB0 HT HA.
  destruct (sot_read p fuel d s tail HZ HI HN HA) as (s' & E & HA' & HS'). cbv zeta in E. rewrite HW in E. cbn [negb] in E.
  match type of E with context [read_heads fuel _ ?d0] => set (d0' := d0) in * end.
  pose proof (len_nonneg (heads_bytes p)) as L1. pose proof (len_nonneg (q_data p)) as L2.
  destruct HZ as (Z1 & Z2 & Z3 & Z4 & Z5 & Z6).
  destruct (segs_read (q_segs p) fuel d0' s' (q_data p ++ tail) c Z5 HF HA' eq_refl eq_refl) as
    (d1 & s1 & E1 & K1 & K2 & K3 & K4 & K5 & K6 & K7 & K8 & K9 & K10 & K11).
  { unfold d0'. cbn [d_len]. lia. }
  { unfold d0'. cbn [d_len]. fold (heads_bytes p). lia. }
  { unfold d0'. cbn [d_cur d_tcps]. rewrite Z.eqb_refl. exact HC. }
  rewrite E1 in E. unfold d0' in K4, K5, K6, K7, K9, K10, K11. cbn [d_cur d_can d_last d_len d_checked d_corr d_tcps] in K4, K5, K6, K7, K9, K10, K11.
  fold (heads_bytes p) in K7. replace (2 + len (heads_bytes p) + len (q_data p) - len (heads_bytes p)) with (2 + len (q_data p)) in K7 by lia.
  assert (T1 : d_tcps d1 (q_tile p) = with_par (counted (d_tcps d (q_tile p)) p) c).
  { rewrite K11, Z.eqb_refl. rewrite ?Z.eqb_refl. reflexivity. }
  assert (HD : exists d2 s2, read_sod d1 s1 = Done (d2, s2) /\ at_ s2 tail /\ s_src s2 = s_src s1 /\
    d_state d2 = 8 /\ d_cur d2 = q_tile p /\ d_can d2 = d_can d1 /\ d_last d2 = false /\ d_skip d2 = false /\ d_checked d2 = d_checked d1 /\
    d_corr d2 = false /\ forall j, d_tcps d2 j = if j =? q_tile p then filled (d_tcps d (q_tile p)) p c else d_tcps d1 j).
  { unfold PartModel.read_sod. rewrite K4. destruct (Z.leb_spec 0 (q_tile p)); [| lia]. destruct (Z.ltb_spec (q_tile p) nb); [| lia].
    cbn [andb negb]. rewrite K6, K7. destruct (Z.leb_spec 2 (2 + len (q_data p))); [| lia].
    replace (2 + len (q_data p) - 2) with (len (q_data p)) by lia. rewrite u32_small by lia. cbv zeta.
    destruct (Z.eqb_spec (len (q_data p)) 0) as [E0 | E0].
    - assert (q_data p = []) as ED by (destruct (q_data p); [reflexivity | unfold len in E0; cbn [length] in E0; lia]).
      exists (set_state st_TPHSOT (set_len (len (q_data p)) d1)), s1. rewrite ED in K1. cbn [app] in K1.
      cbn [set_state set_len d_state d_cur d_can d_last d_skip d_checked d_corr d_tcps].
      do 3 (split; [auto |]). do 7 (split; [auto |]). intros j. destruct (Z.eqb_spec j (q_tile p)) as [-> |]; [| reflexivity].
      rewrite T1. unfold with_par, counted, filled. cbn [t_part t_parts t_buf t_bytes t_size]. rewrite ED, app_nil_r. unfold len. cbn [length].
      rewrite Z.add_0_r. reflexivity.
    - rewrite (at_left _ _ K1), len_app. pose proof (len_nonneg tail). destruct (Z.ltb_spec (len (q_data p) + len tail) (len (q_data p))); [lia |].
      cbn [andb]. destruct (Z.ltb_spec 4294967293 (len (q_data p))); [lia |]. rewrite T1. unfold with_par, counted. cbn [t_part t_parts t_buf t_bytes t_size t_par].
      assert (ER : (match t_buf (d_tcps d (q_tile p)) with
        | Some _ => if u32 (4294967293 - len (q_data p)) <? t_size (d_tcps d (q_tile p)) then None else Some (u32 (u32 (t_size (d_tcps d (q_tile p)) + len (q_data p)) + 2))
        | None => Some (u32 (len (q_data p) + 2)) end) = Some (t_size (d_tcps d (q_tile p)) + len (q_data p) + 2)).
      { destruct (t_buf (d_tcps d (q_tile p))).
        - rewrite (u32_small (4294967293 - len (q_data p))) by lia. destruct (Z.ltb_spec (4294967293 - len (q_data p)) (t_size (d_tcps d (q_tile p)))); [lia |].
          rewrite !u32_small by (rewrite ?u32_small by lia; lia). reflexivity.
        - rewrite (HB eq_refl). rewrite u32_small by lia. f_equal. }
      rewrite ER. destruct (Z.ltb_spec (t_size (d_tcps d (q_tile p)) + len (q_data p) + 2) (t_size (d_tcps d (q_tile p)) + len (q_data p))); [lia |].
      destruct (take_at (len (q_data p)) _ _ _ K1 eq_refl) as (s2 & E2 & K1' & K2'). rewrite E2.
      eexists. exists s2. split; [reflexivity |]. split; [exact K1' |]. split; [exact K2' |].
      cbn [put set_tcps set_state set_len d_state d_cur d_can d_last d_skip d_checked d_corr d_tcps].
      do 7 (split; [auto |]). intros j. rewrite ?K4. destruct (Z.eqb_spec j (q_tile p)) as [-> |]; [| reflexivity].
      unfold filled. rewrite u32_small by lia. destruct (q_data p); [unfold len in E0; cbn [length] in E0; lia | reflexivity]. }
  destruct HD as (d2 & s2 & D1 & D2 & D3 & D4 & D5 & D6 & D7 & D8 & D9 & D10 & D11).
  exists d1, s1, d2, s2. split; [exact E |]. split; [exact K3 |]. split; [exact K8 |]. split; [exact D1 |]. split; [exact D2 |]. split; [congruence |].
  split; [exact D4 |]. split; [exact D5 |]. split; [congruence |]. split; [exact D7 |]. split; [exact D8 |]. split; [congruence |]. split; [exact D10 |].
  intros j. rewrite D11. destruct (Z.eqb_spec j (q_tile p)) as [-> | N]; [reflexivity |]. rewrite K11.
  rewrite (proj2 (Z.eqb_neq _ _) N). reflexivity.
Qed.

Lemma part_unwanted : forall p fuel (d : dec) s tail, sizes p -> idle d -> enough p (d_tcps d (q_tile p)) ->
  wanted (q_tile p) = false -> at_ s (skipn 2 (part_bytes p) ++ tail) ->
  exists (d1 : dec) s1, read_heads (S fuel) SOT d s = Done (SOD, d1, s1) /\ d_state d1 = 16 /\ d_skip d1 = true /\
    at_ s1 tail /\ s_src s1 = s_src s /\ d_cur d1 = q_tile p /\ d_last d1 = false /\ d_checked d1 = d_checked d /\ d_corr d1 = false /\
    forall j, d_tcps d1 j = if j =? q_tile p then counted (d_tcps d (q_tile p)) p else d_tcps d j.
Proof.
  intros p fuel d s tail HZ HI HN HW HA.
  destruct (sot_read p fuel d s tail HZ HI HN HA) as (s' & E & HA' & HS'). cbv zeta in E. rewrite HW in E. cbn [negb d_len] in E.
  rewrite !app_assoc, <- (app_assoc (heads_bytes p)) in HA'. rewrite <- app_assoc in HA'.
  assert (HA2 : at_ s' ((heads_bytes p ++ be 2 SOD ++ q_data p) ++ tail)) by (rewrite <- !app_assoc in *; exact HA').
  destruct (skip_at (2 + len (heads_bytes p) + len (q_data p)) _ _ _ HA2) as (s1 & E1 & HA1 & HS1).
  { rewrite !len_app, len_be by lia. change (Z.of_nat 2) with 2. lia. }
  rewrite E1 in E. eexists. exists s1. split; [exact E |]. cbn [d_state d_skip d_cur d_last d_checked d_corr d_tcps].
  do 2 (split; [reflexivity |]). split; [exact HA1 |]. split; [congruence |]. do 4 (split; [reflexivity |]). intros j. reflexivity.
Qed.

(** ** Looking ahead *)

Lemma look_none : forall ps fuel i s, Forall sizes ps -> Forall (fun p => q_tile p <> i) ps -> (length ps < fuel)%nat ->
  at_ s (body ps) -> exists s' l, look_ahead fuel i s = Done (false, s') /\ at_ s' l /\ s_src s' = s_src s.
Proof.
  induction ps as [| p ps IH]; intros fuel i s HZ HN HF HA; (destruct fuel as [| fuel]; [cbn [length] in HF; lia |]).
  - unfold body in HA. cbn [flat_map app] in HA. rewrite <- (app_nil_r (be 2 65497)) in HA.
    destruct (take_at 2 _ _ _ HA (len_be 2 _ ltac:(lia))) as (s1 & E1 & HA1 & HS1). cbn [look_ahead]. rewrite E1, be_value_be by (cbn; lia).
    change (65497 =? SOT) with false. cbn [negb]. exists s1, []. auto.
  - inversion HZ as [| ? ? HZp HZ']; subst. inversion HN as [| ? ? HNp HN']; subst. destruct HZp as (Z1 & Z2 & Z3 & Z4 & Z5 & Z6).
    pose proof (len_nonneg (heads_bytes p)) as L1. pose proof (len_nonneg (q_data p)) as L2.
    rewrite body_cons in HA.
    assert (EP : skipn 2 (part_bytes p) ++ body ps = be 2 10 ++ (be 2 (q_tile p) ++ be 4 (14 + len (heads_bytes p) + len (q_data p)) ++ be 1 (q_no p) ++ be 1 (q_of p)) ++
      (heads_bytes p ++ be 2 SOD ++ q_data p) ++ body ps).
    { unfold part_bytes. change 2%nat with (length (be 2 65424)) at 1. rewrite skipn_app_len, <- !app_assoc. reflexivity. }
    rewrite EP in HA.
    destruct (take_at 2 _ _ _ HA (len_be 2 _ ltac:(lia))) as (s1 & E1 & HA1 & HS1).
    destruct (take_at 2 _ _ _ HA1 (len_be 2 _ ltac:(lia))) as (s2 & E2 & HA2 & HS2).
    destruct (take_at 8 _ _ _ HA2) as (s3 & E3 & HA3 & HS3). { rewrite !len_app, !len_be by lia. reflexivity. }
    destruct (skip_at (14 + len (heads_bytes p) + len (q_data p) - 12) _ _ _ HA3) as (s4 & E4 & HA4 & HS4).
    { rewrite !len_app, len_be by lia. change (Z.of_nat 2) with 2. lia. }
    destruct (IH fuel i s4 HZ' HN' ltac:(cbn [length] in HF; lia) HA4) as (s' & l & E & K1 & K2).
    exists s', l. split; [| split; [exact K1 | congruence]].
    cbn [look_ahead]. rewrite E1, be_value_be by (unfold SOT; cbn; lia). change (SOT =? SOT) with true. cbn [negb].
    rewrite E2, be_value_be by (cbn; lia). change (10 =? 10) with true. cbn [negb]. rewrite E3, sot_values by lia.
    rewrite (proj2 (Z.eqb_neq _ _) HNp). destruct (Z.ltb_spec (14 + len (heads_bytes p) + len (q_data p)) 14); [lia |]. rewrite E4. exact E.
Qed.

Lemma no_correction : forall ps (d : dec) s, Forall sizes ps -> Forall (fun p => q_tile p <> d_cur d) ps -> at_ s (body ps) ->
  d_corr d = false ->
  exists d' : dec, check_parts nb seekable d s = Done (d', s) /\ d_state d' = d_state d /\ d_cur d' = d_cur d /\ d_can d' = d_can d /\
    d_last d' = d_last d /\ d_skip d' = d_skip d /\ d_corr d' = false /\ d_tcps d' = d_tcps d.
Proof.
  intros ps d s HZ HN HA HC. unfold check_parts. destruct (d_can d && negb (d_checked d)); [| exists d; repeat split; exact HC].
  unfold need_correction. destruct seekable; cbn [negb]; [| eexists; split; [reflexivity |]; cbn; repeat split; exact HC].
  destruct (look_none ps (S (length (s_src s))) (d_cur d) s HZ HN) as (s' & l & E & K1 & K2).
  { pose proof (body_len ps). pose proof (at_src _ _ HA). lia. }
  { exact HA. }
  rewrite E. rewrite at_eq; [eexists; split; [reflexivity |]; cbn; repeat split; exact HC | | exact K2 |].
  - destruct HA as (H & _). exact H.
  - destruct K1 as (H & _). exact H.
Qed.

End Parts.

(** ** Counting *)

Lemma mine_app : forall i a b, mine i (a ++ b) = mine i a ++ mine i b.
Proof. intros. unfold mine. apply filter_app. Qed.
Lemma told_app : forall i a b, told i (a ++ b) = told i a || told i b.
Proof. intros. unfold told. rewrite mine_app. apply existsb_app. Qed.
Lemma data_app : forall i a b, data_of i (a ++ b) = data_of i a ++ data_of i b.
Proof. intros. unfold data_of. rewrite mine_app. apply flat_map_app. Qed.
Lemma mine_one : forall p, mine (q_tile p) [p] = [p].
Proof. intros. unfold mine. cbn [filter]. rewrite Z.eqb_refl. reflexivity. Qed.
Lemma mine_other : forall i p, i <> q_tile p -> mine i [p] = [].
Proof. intros. unfold mine. cbn [filter]. rewrite (proj2 (Z.eqb_neq _ _)) by lia. reflexivity. Qed.
Lemma told_other : forall i p, i <> q_tile p -> told i [p] = false.
Proof. intros. unfold told. rewrite mine_other by assumption. reflexivity. Qed.
Lemma data_one : forall p, data_of (q_tile p) [p] = q_data p.
Proof. intros. unfold data_of. rewrite mine_one. cbn [flat_map]. apply app_nil_r. Qed.
Lemma data_other : forall i p, i <> q_tile p -> data_of i [p] = [].
Proof. intros. unfold data_of. rewrite mine_other by assumption. reflexivity. Qed.
Lemma told_one : forall p, told (q_tile p) [p] = negb (q_of p =? 0).
Proof. intros. unfold told. rewrite mine_one. cbn [existsb]. apply orb_false_r. Qed.

Lemma after_app : forall {C} (h : Z -> Z -> C -> list Z -> option C) i a b c,
  after h i c (a ++ b) = match after h i c a with None => None | Some c => after h i c b end.
Proof.
  intros C h i a b. induction a as [| [m x] a IH]; intros c; [reflexivity |]. cbn [app after]. destruct (h m i c x); [apply IH | reflexivity].
Qed.
Lemma par_app : forall {C} (h : Z -> Z -> C -> list Z -> option C) i a b c,
  par_of h i c (a ++ b) = match par_of h i c a with None => None | Some c => par_of h i c b end.
Proof. intros. unfold par_of. rewrite mine_app, flat_map_app. apply after_app. Qed.
Lemma par_one : forall {C} (h : Z -> Z -> C -> list Z -> option C) p c, par_of h (q_tile p) c [p] = after h (q_tile p) c (q_segs p).
Proof. intros. unfold par_of. rewrite mine_one. cbn [flat_map]. rewrite app_nil_r. reflexivity. Qed.
Lemma par_other : forall {C} (h : Z -> Z -> C -> list Z -> option C) i p c, i <> q_tile p -> par_of h i c [p] = Some c.
Proof. intros. unfold par_of. rewrite mine_other by assumption. reflexivity. Qed.

Lemma mine_nil : forall i ps, mine i ps = [] <-> Forall (fun p => q_tile p <> i) ps.
Proof.
  intros i ps. induction ps as [| p ps IH]; [split; [constructor | reflexivity] |].
  unfold mine in *. cbn [filter]. destruct (Z.eqb_spec (q_tile p) i) as [E | E]; split; intros H; try discriminate.
  - inversion H; contradiction.
  - constructor; [exact E | apply IH; exact H].
  - inversion H; subst. apply IH. assumption.
Qed.
Lemma later_mine : forall i ps, existsb (fun q => q_tile q =? i) ps = negb (len (mine i ps) =? 0).
Proof.
  intros i ps. induction ps as [| p ps IH]; [reflexivity |]. cbn [existsb]. unfold mine in *. cbn [filter]. destruct (Z.eqb_spec (q_tile p) i).
  - cbn [orb]. unfold len. cbn [length]. symmetry. rewrite (proj2 (Z.eqb_neq _ _)) by lia. reflexivity.
  - cbn [orb]. exact IH.
Qed.
Lemma len0 : forall {A} (l : list A), len l = 0 <-> l = [].
Proof. intros A l. unfold len. destruct l; cbn [length]; split; intros; try reflexivity; try discriminate; lia. Qed.

Lemma lasts_in : forall i ps, In i (lasts ps) <-> mine i ps <> [].
Proof.
  intros i ps. induction ps as [| p ps IH]; [split; [intros [] | intros H; contradiction H; reflexivity] |].
  cbn [lasts]. rewrite later_mine. unfold mine at 2. cbn [filter]. fold (mine i ps).
  destruct (Z.eqb_spec (q_tile p) i) as [E | E].
  - split; [intros _ X; discriminate |]. intros _. destruct (Z.eqb_spec (len (mine (q_tile p) ps)) 0) as [L | L]; cbn [negb].
    + left. exact E.
    + apply IH. rewrite <- E. intros X. apply L. rewrite X. reflexivity.
  - destruct (Z.eqb_spec (len (mine (q_tile p) ps)) 0) as [L | L]; cbn [negb]; [| exact IH].
    rewrite <- IH. split; [intros [X | X]; [contradiction | exact X] | intros X; right; exact X].
Qed.
Lemma lasts_nodup : forall ps, NoDup (lasts ps).
Proof.
  induction ps as [| p ps IH]; [constructor |]. cbn [lasts]. rewrite later_mine.
  destruct (Z.eqb_spec (len (mine (q_tile p) ps)) 0) as [L | L]; cbn [negb]; [| exact IH].
  constructor; [| exact IH]. rewrite lasts_in. apply len0 in L. intros X. contradiction.
Qed.
Lemma tiles_in : forall nb i, In i (tiles nb) <-> 0 <= i < nb.
Proof.
  intros nb i. unfold tiles. rewrite in_map_iff. split.
  - intros (k & E & K). apply in_seq in K. lia.
  - intros H. exists (Z.to_nat i). split; [lia |]. apply in_seq. lia.
Qed.
Lemma tiles_nodup : forall nb, NoDup (tiles nb).
Proof. intros. unfold tiles. apply Injective_map_NoDup; [intros x y H; lia | apply seq_NoDup]. Qed.
Lemma tiles_length : forall nb, length (tiles nb) = Z.to_nat nb.
Proof. intros. unfold tiles. rewrite map_length. apply seq_length. Qed.

Lemma nodup_app : forall {A} (a b : list A), NoDup a -> NoDup b -> (forall x, In x a -> ~ In x b) -> NoDup (a ++ b).
Proof.
  intros A a b Ha Hb H. induction a as [| x a IH]; [exact Hb |]. inversion Ha; subst. cbn [app]. constructor.
  - rewrite in_app_iff. intros [X | X]; [contradiction | apply (H x); [left; reflexivity | exact X]].
  - apply IH; [assumption |]. intros y Hy. apply H. right. exact Hy.
Qed.

Lemma order_in : forall nb wanted ps i, Forall (part_ok nb ps) ps ->
  In i (order nb wanted ps) <-> wanted i = true /\ mine i ps <> [] /\ 0 <= i < nb.
Proof.
  intros nb wanted ps i H. unfold order. rewrite in_app_iff, !filter_In, lasts_in, tiles_in.
  assert (R : mine i ps <> [] -> 0 <= i < nb).
  { intros N. destruct (mine i ps) as [| p l] eqn:E; [contradiction |].
    assert (X : In p (mine i ps)) by (rewrite E; left; reflexivity). unfold mine in X. apply filter_In in X. destruct X as [X Y].
    apply Z.eqb_eq in Y. rewrite Forall_forall in H. destruct (H p X) as (B & _). lia. }
  assert (L : mine i ps <> [] <-> (len (mine i ps) =? 0) = false).
  { rewrite Z.eqb_neq, len0. reflexivity. }
  destruct (wanted i), (told i ps); cbn [andb negb]; rewrite ?negb_true_iff; intuition congruence.
Qed.

Lemma order_length : forall nb wanted ps, Forall (part_ok nb ps) ps -> (length (order nb wanted ps) <= Z.to_nat nb)%nat.
Proof.
  intros nb wanted ps H. rewrite <- tiles_length. apply NoDup_incl_length.
  - unfold order. apply nodup_app; [apply NoDup_filter, lasts_nodup | apply NoDup_filter, tiles_nodup |].
    intros i. rewrite !filter_In. intros [_ A] [_ B]. destruct (wanted i), (told i ps); cbn in *; discriminate.
  - intros i Hi. apply (order_in nb wanted ps i H) in Hi. apply tiles_in. tauto.
Qed.

(** ** Choosing a tile *)

Fixpoint upto (k : nat) (i : Z) : list Z := match k with O => [] | S k => i :: upto k (i + 1) end.
Lemma upto_tiles : forall k i, upto k (Z.of_nat i) = map Z.of_nat (seq i k).
Proof. induction k as [| k IH]; intros i; [reflexivity |]. cbn [upto seq map]. f_equal. rewrite <- IH. f_equal. lia. Qed.
Lemma upto_in : forall k i j, In j (upto k i) <-> i <= j < i + Z.of_nat k.
Proof.
  induction k as [| k IH]; intros i j; cbn [upto In]; [lia |]. rewrite IH. lia.
Qed.
Lemma find_first : forall f k i,
  (find f k i = i + Z.of_nat k /\ filter f (upto k i) = []) \/
  (i <= find f k i < i + Z.of_nat k /\ f (find f k i) = true /\
   filter f (upto k i) = find f k i :: filter f (upto (Z.to_nat (i + Z.of_nat k - find f k i - 1)) (find f k i + 1))).
Proof.
  intros f. induction k as [| k IH]; intros i; [left; cbn; split; [lia | reflexivity] |].
  cbn [find upto filter]. destruct (f i) eqn:E.
  - right. split; [lia |]. split; [exact E |]. do 3 f_equal. lia.
  - destruct (IH (i + 1)) as [[A B] | (A & B & D)].
    + left. split; [lia | exact B].
    + right. split; [lia |]. split; [exact B |]. rewrite D. do 3 f_equal. lia.
Qed.

Lemma filter_ext_on : forall {A} (f g : A -> bool) l, (forall x, In x l -> f x = g x) -> filter f l = filter g l.
Proof.
  intros A f g l H. induction l as [| x l IH]; [reflexivity |]. cbn [filter]. rewrite (H x) by (left; reflexivity).
  rewrite IH; [reflexivity |]. intros y Hy. apply H. right. exact Hy.
Qed.

Section Run.
Context {C R : Type}.
Variable handle : Z -> Z -> C -> list Z -> option C.
Variable use : Z -> C -> list Z -> option R.
Variable nb : Z.
Variable wanted : Z -> bool.
Variable strict seekable fails : bool.
Variable par : Z -> C.
Variable all : list part.
Variable res : Z -> R.

Hypothesis Hseq : sequence_ok nb all.
Hypothesis Hdata : forall i, In i (order nb wanted all) -> data_of i all <> [].
Hypothesis Huse : forall i, In i (order nb wanted all) ->
  exists c, par_of handle i (par i) all = Some c /\ use i c (data_of i all) = Some (res i).

Notation tcp := (tcp C).
Notation dec := (dec C).
Notation read_heads := (read_heads handle nb wanted).
Notation read_sod := (read_sod nb strict fails).
Notation read_parts := (read_parts handle nb wanted strict seekable fails).
Notation read_tile_header := (read_tile_header handle nb wanted strict seekable fails).
Notation decode_loop := (decode_loop handle use nb wanted strict seekable fails).

Definition has (d : dec) (i : Z) : bool := match t_buf (d_tcps d i) with None => false | Some _ => true end.
Definition usable (d : dec) (i : Z) : Prop :=
  forall room, t_buf (d_tcps d i) = Some room ->
  t_size (d_tcps d i) <= room /\ use i (t_par (d_tcps d i)) (firstn (Z.to_nat (t_size (d_tcps d i))) (t_bytes (d_tcps d i))) = Some (res i).

(** *** After the end of the code-stream *)

Lemma eoc_loop : forall n (d : dec) s, d_state d = 256 -> d_can d = false -> 0 <= d_cur d <= nb ->
  (forall i, d_cur d <= i < nb -> usable d i) ->
  (length (filter (has d) (upto (Z.to_nat (nb - d_cur d)) (d_cur d))) <= n)%nat ->
  decode_loop n d s = Done (map (fun i => (i, res i)) (filter (has d) (upto (Z.to_nat (nb - d_cur d)) (d_cur d)))).
Proof.
  induction n as [| n IH]; intros d s HS HC HR HU HL.
  - destruct (filter _ _); [reflexivity | cbn [length] in HL; lia].
  - cbn [PartModel.decode_loop]. unfold PartModel.read_tile_header. rewrite HS. change (256 =? st_EOC) with true. cbv iota.
    cbn [PartModel.read_parts]. rewrite HC. change (EOC =? EOC) with true. cbn [orb andb]. rewrite HS. change (256 =? st_EOC) with true. cbn [negb]. rewrite !andb_false_r. cbv zeta iota.
    rewrite HC. change (fun i : Z => match t_buf (d_tcps d i) with Some _ => true | None => false end) with (has d).
    destruct (find_first (has d) (Z.to_nat (nb - d_cur d)) (d_cur d)) as [[A B] | (A & B & D)].
    + rewrite B. rewrite A. replace (d_cur d + Z.of_nat (Z.to_nat (nb - d_cur d))) with nb by lia. rewrite Z.eqb_refl.
      cbn [set_cur d_can]. rewrite HC. reflexivity.
    + rewrite D in HL |- *. set (i := find (has d) (Z.to_nat (nb - d_cur d)) (d_cur d)) in *.
      assert (Hi : d_cur d <= i < nb) by lia. cbn [set_cur d_can]. rewrite HC. cbn [negb andb].
      destruct (Z.eqb_spec i nb); [lia |]. destruct (Z.leb_spec 0 i); [| lia]. destruct (Z.ltb_spec i nb); [| lia]. cbn [andb negb].
      unfold decode_tile. cbn [set_state set_cur d_state d_cur d_tcps]. rewrite HS. change (Z.land (Z.lor 256 st_DATA) st_DATA =? 0) with false.
      rewrite Z.eqb_refl. cbn [negb orb]. unfold has in B. destruct (t_buf (d_tcps d i)) as [room |] eqn:EB; [| discriminate].
      destruct (HU i Hi room EB) as [U1 U2]. destruct (Z.ltb_spec room (t_size (d_tcps d i))); [lia |]. rewrite U2.
      cbn [set_can set_state set_cur d_state d_cur d_tcps]. change (Z.ldiff (Z.lor 256 st_DATA) st_DATA) with 256.
      change (256 =? st_NEOC) with false. rewrite andb_false_r. change (256 =? st_EOC) with true. cbv iota.
      unfold drop_data. cbn [set_can set_state set_cur d_state d_cur d_tcps]. rewrite EB.
      cbn [put set_tcps d_state d_can d_last d_len d_skip d_checked d_corr d_tcps d_cur]. change (256 =? st_NEOC) with false. rewrite andb_false_r.
      match goal with |- context [decode_loop n ?d0] => set (d1 := d0) end.
      assert (T : forall j, d_tcps d1 j = if j =? i then mkTcp (t_part (d_tcps d i)) (t_parts (d_tcps d i)) None [] 0 (t_par (d_tcps d i)) else d_tcps d j) by reflexivity.
      assert (EF : filter (has d1) (upto (Z.to_nat (nb - d_cur d1)) (d_cur d1)) =
                   filter (has d) (upto (Z.to_nat (d_cur d + Z.of_nat (Z.to_nat (nb - d_cur d)) - i - 1)) (i + 1))).
      { change (d_cur d1) with i. replace (Z.to_nat (nb - i)) with (S (Z.to_nat (d_cur d + Z.of_nat (Z.to_nat (nb - d_cur d)) - i - 1))) by lia.
        cbn [upto filter]. unfold has at 1. rewrite T, Z.eqb_refl. cbn [t_buf]. apply filter_ext_on. intros j Hj. apply upto_in in Hj.
        unfold has. rewrite T. rewrite (proj2 (Z.eqb_neq _ _)) by lia. reflexivity. }
      rewrite (IH d1 s); [rewrite EF; reflexivity | reflexivity | reflexivity | change (d_cur d1) with i; lia | | rewrite EF; cbn [length] in HL; lia].
      change (d_cur d1) with i. intros j Hj room'. unfold usable. rewrite T. destruct (Z.eqb_spec j i); [cbn [t_buf]; discriminate |].
      apply HU. lia.
Qed.

(** *** Between the tile-parts *)

Definition closed (i : Z) (done : list part) : bool := told i done && (len (mine i done) =? len (mine i all)).
Definition counts (done : list part) (i : Z) (t : tcp) : Prop :=
  t_part t = len (mine i done) - 1 /\ t_parts t = (if told i done then len (mine i all) else 0) /\
  (wanted i = true -> par_of handle i (par i) done = Some (t_par t)).
Definition full (l : list Z) (t : tcp) : Prop :=
  t_bytes t = l /\ t_size t = len l /\ t_buf t = match l with [] => None | _ => Some (len l + 2) end.
Definition inv (done : list part) (d : dec) : Prop := forall i, 0 <= i < nb ->
  counts done i (d_tcps d i) /\ full (if wanted i && negb (closed i done) then data_of i done else []) (d_tcps d i).
Definition ready (done : list part) (k : Z) (d : dec) : Prop :=
  d_state d = 8 /\ d_cur d = k /\ d_can d = true /\ d_last d = false /\ d_skip d = false /\ d_corr d = false /\ 0 <= k < nb /\
  forall i, 0 <= i < nb ->
  counts done i (d_tcps d i) /\ full (if i =? k then data_of i done else if wanted i && negb (closed i done) then data_of i done else []) (d_tcps d i).

Definition fin (rest : list part) : list Z := filter (fun i => wanted i && told i all) (lasts rest).

Lemma len_all : forall i done b, all = done ++ b -> len (mine i all) = len (mine i done) + len (mine i b).
Proof. intros i done b E. rewrite E, mine_app, len_app. reflexivity. Qed.

Lemma fin_cons : forall done p b, all = done ++ p :: b ->
  fin (p :: b) = if wanted (q_tile p) && closed (q_tile p) (done ++ [p]) then q_tile p :: fin b else fin b.
Proof.
  intros done p b E. unfold fin. cbn [lasts]. rewrite later_mine. unfold closed.
  assert (E2 : all = (done ++ [p]) ++ b) by (rewrite <- app_assoc; exact E).
  rewrite (len_all _ _ _ E2).
  destruct (Z.eqb_spec (len (mine (q_tile p) b)) 0) as [L | L]; cbn [negb].
  - assert (ET : told (q_tile p) (done ++ [p]) = told (q_tile p) all).
    { rewrite E2, (told_app _ (done ++ [p])). apply len0 in L. unfold told at 3. rewrite L. cbn [existsb]. rewrite orb_false_r. reflexivity. }
    rewrite ET, L, Z.add_0_r, Z.eqb_refl, andb_true_r. cbn [filter]. reflexivity.
  - rewrite (proj2 (Z.eqb_neq (len (mine (q_tile p) (done ++ [p]))) _)) by lia. rewrite !andb_false_r. reflexivity.
Qed.

Lemma part_facts : forall done p b, all = done ++ p :: b ->
  sizes nb p /\ q_no p = len (mine (q_tile p) done) /\ (q_of p = 0 \/ q_of p = len (mine (q_tile p) all)) /\
  len (mine (q_tile p) all) = len (mine (q_tile p) done) + 1 + len (mine (q_tile p) b) /\ len (mine (q_tile p) all) <= 255.
Proof.
  intros done p b E. destruct Hseq as (S1 & S2 & S3 & S4 & S5). rewrite Forall_forall in S2.
  destruct (S2 p) as (P1 & P2 & P3 & P4). { rewrite E. apply in_or_app. right. left. reflexivity. }
  pose proof (S3 _ _ _ E) as N. pose proof (S4 (q_tile p)) as L.
  assert (EL : len (mine (q_tile p) all) = len (mine (q_tile p) done) + 1 + len (mine (q_tile p) b)).
  { rewrite E. change (p :: b) with ([p] ++ b). rewrite !mine_app, !len_app, mine_one. change (len [p]) with 1. lia. }
  pose proof (len_nonneg (mine (q_tile p) done)). pose proof (len_nonneg (mine (q_tile p) b)).
  split; [| auto]. unfold sizes, seg_ok. split; [exact P1 |]. split; [lia |]. split; [lia |]. split; [lia |]. split; [exact P3 | lia].
Qed.

Lemma par_all : forall i a b, all = a ++ b -> wanted i = true -> 0 <= i < nb -> exists c, par_of handle i (par i) a = Some c.
Proof.
  intros i a b E W Hi. destruct (mine i all) as [| q l] eqn:M.
  - rewrite E, mine_app in M. apply app_eq_nil in M. unfold par_of. rewrite (proj1 M). exists (par i). reflexivity.
  - destruct (Huse i) as (c & K & _).
    { apply order_in; [exact (proj1 (proj2 Hseq)) |]. rewrite M. repeat split; try assumption; try lia. discriminate. }
    rewrite E, par_app in K. destruct (par_of handle i (par i) a); [eauto | discriminate].
Qed.

Lemma inv_enough : forall done p b (d : dec), all = done ++ p :: b -> inv done d -> enough p (d_tcps d (q_tile p)).
Proof.
  intros done p b d E HI. destruct (part_facts done p b E) as (Z0 & N & O & L & M). destruct Z0 as (Z1 & _).
  destruct (HI (q_tile p) Z1) as ((C1 & C2 & _) & _). unfold enough. pose proof (len_nonneg (mine (q_tile p) b)).
  split; [lia |]. split; [rewrite C2; destruct (told (q_tile p) done); [right; lia | left; reflexivity] | destruct O; [left | right]; lia].
Qed.

Lemma told_snoc : forall done p, told (q_tile p) (done ++ [p]) = told (q_tile p) done || negb (q_of p =? 0).
Proof. intros. rewrite told_app, told_one. reflexivity. Qed.

Lemma inv_closing : forall done p b (d : dec), all = done ++ p :: b -> inv done d ->
  closing (d_tcps d (q_tile p)) p = closed (q_tile p) (done ++ [p]).
Proof.
  intros done p b d E HI. destruct (part_facts done p b E) as (Z0 & N & O & L & M). destruct Z0 as (Z1 & _).
  destruct (HI (q_tile p) Z1) as ((C1 & C2 & _) & _). pose proof (len_nonneg (mine (q_tile p) b)). pose proof (len_nonneg (mine (q_tile p) done)).
  unfold closing, closed. cbv zeta. rewrite told_snoc, mine_app, mine_one, len_app. change (len [p]) with 1. rewrite C2, N.
  destruct (Z.eqb_spec (q_of p) 0) as [Q | Q]; cbn [negb].
  - rewrite orb_false_r. destruct (told (q_tile p) done); [| reflexivity]. rewrite (proj2 (Z.eqb_neq (len (mine (q_tile p) all)) 0)) by lia.
    cbn [negb andb]. apply Z.eqb_sym.
  - rewrite orb_true_r. destruct O as [O | O]; [contradiction |]. rewrite O. rewrite (proj2 (Z.eqb_neq (len (mine (q_tile p) all)) 0)) by lia.
    cbn [negb andb]. apply Z.eqb_sym.
Qed.

Lemma not_closed_before : forall done p b, all = done ++ p :: b -> closed (q_tile p) done = false.
Proof.
  intros done p b E. destruct (part_facts done p b E) as (Z0 & N & O & L & M). unfold closed. pose proof (len_nonneg (mine (q_tile p) b)).
  rewrite (proj2 (Z.eqb_neq _ _)) by lia. apply andb_false_r.
Qed.

Lemma closed_other : forall i done p, i <> q_tile p -> closed i (done ++ [p]) = closed i done.
Proof. intros i done p H. unfold closed. rewrite told_app, told_other, mine_app, mine_other, app_nil_r, orb_false_r by assumption. reflexivity. Qed.
Lemma counts_other : forall i done p t, i <> q_tile p -> counts done i t -> counts (done ++ [p]) i t.
Proof.
  intros i done p t H (K1 & K2 & K3). unfold counts. rewrite told_app, told_other, mine_app, mine_other, app_nil_r, orb_false_r by assumption.
  split; [exact K1 |]. split; [exact K2 |]. intros W. rewrite par_app, (K3 W). apply par_other. exact H.
Qed.

(** One tile-part inside [read_parts]. *)
Lemma step : forall done p b (d : dec) s fuel, all = done ++ p :: b -> inv done d -> idle d ->
  at_ s (skipn 2 (part_bytes p) ++ body b) ->
  exists (d' : dec) s', at_ s' (body b) /\ s_src s' = s_src s /\
    if wanted (q_tile p) && closed (q_tile p) (done ++ [p])
    then read_parts (S fuel) SOT d s = Done (SOD, d', s') /\ ready (done ++ [p]) (q_tile p) d'
    else (forall bs s2, take 2 s' = (Some bs, s2) -> read_parts (S fuel) SOT d s = read_parts fuel (from_be bs) d' s2) /\
         inv (done ++ [p]) d' /\ idle d'.
Proof.
  intros done p b d s fuel E HI HD HA.
  destruct (part_facts done p b E) as (Z0 & N & O & L & M). pose proof Z0 as (Z1 & _).
  pose proof (inv_enough done p b d E HI) as HN. pose proof (inv_closing done p b d E HI) as HC. pose proof (not_closed_before done p b E) as HB.
  pose proof (HI (q_tile p) Z1) as ((C1 & C2 & C3) & F1 & F2 & F3). pose proof HD as (I1 & I2 & I3 & I4 & I5).
  assert (EB : all = (done ++ [p]) ++ b) by (rewrite <- app_assoc; exact E).
  assert (ZB : Forall (sizes nb) b).
  { rewrite Forall_forall. intros q Hq. apply in_split in Hq. destruct Hq as (x & y & ->).
    apply (part_facts (done ++ p :: x) q y). rewrite E, <- app_assoc. reflexivity. }
  cbn [PartModel.read_parts]. rewrite I2. change (SOT =? EOC) with false. cbn [orb].
  destruct (wanted (q_tile p)) eqn:W.
  - (* wanted *)
    rewrite HB in F1, F2, F3. cbn [andb negb] in F1, F2, F3.
    assert (HP : exists c, after handle (q_tile p) (t_par (d_tcps d (q_tile p))) (q_segs p) = Some c /\ par_of handle (q_tile p) (par (q_tile p)) (done ++ [p]) = Some c).
    { destruct (par_all (q_tile p) _ _ EB W Z1) as (c & K). exists c. split; [| exact K]. rewrite par_app, (C3 eq_refl), par_one in K. exact K. }
    destruct HP as (c & HP1 & HP2).
    assert (HLd : len (data_of (q_tile p) done) + len (q_data p) <= 2 ^ 32 - 3).
    { destruct Hseq as (_ & _ & _ & _ & S5). pose proof (S5 (q_tile p)) as X. rewrite EB, !data_app, !len_app, data_one in X.
      pose proof (len_nonneg (data_of (q_tile p) b)). lia. }
    assert (HF : (length (q_segs p) < length (s_src s))%nat).
    { pose proof (at_src _ _ HA) as X. rewrite app_length in X. pose proof (body_len b). assert (Y : (length (q_segs p) + 12 <= length (skipn 2 (part_bytes p)))%nat).
      { rewrite skipn_length. unfold part_bytes. rewrite !app_length, !be_len by lia. unfold heads_bytes.
        assert (G : forall l, (length l <= length (flat_map seg_bytes l))%nat).
        { induction l as [| sg l IH]; [cbn; lia |]. cbn [flat_map length]. rewrite app_length. unfold seg_bytes at 1. rewrite app_length, be_len by lia. lia. }
        pose proof (G (q_segs p)). lia. }
      lia. }
    destruct (part_wanted handle nb wanted strict fails p (length (s_src s)) d s (body b) c Z0 HD HN W HF HP1) as
      (d1 & s1 & d2 & s2 & E1 & D1 & D2 & E2 & A2 & A3 & K1 & K2 & K3 & K4 & K5 & K6 & K7 & K8).
    { rewrite F3, F2. destruct (data_of (q_tile p) done); [reflexivity | discriminate]. }
    { rewrite F2. apply len_nonneg. }
    { rewrite F2. exact HLd. }
    { exact HA. }
    rewrite E1, D1, D2. change (16 =? st_NEOC) with false. rewrite andb_false_r. rewrite E2.
    assert (T2 : forall i, 0 <= i < nb -> counts (done ++ [p]) i (d_tcps d2 i) /\
      full (if i =? q_tile p then data_of i (done ++ [p]) else if wanted i && negb (closed i (done ++ [p])) then data_of i (done ++ [p]) else []) (d_tcps d2 i)).
    { intros i Hi. rewrite K8. destruct (Z.eqb_spec i (q_tile p)) as [-> | Ni].
      - split.
        + unfold counts, filled. cbn [t_part t_parts t_par]. rewrite mine_app, mine_one, len_app, told_snoc, C2, N. change (len [p]) with 1.
          split; [lia |]. split; [| intros _; exact HP2]. destruct (Z.eqb_spec (q_of p) 0); cbn [negb]; [rewrite orb_false_r; reflexivity |].
          rewrite orb_true_r. destruct O; [contradiction | assumption].
        + rewrite data_app, data_one. unfold full, filled. cbn [t_bytes t_size t_buf]. rewrite F1, F2, F3, len_app. split; [reflexivity |]. split; [reflexivity |].
          destruct (q_data p) as [| x q] eqn:Q.
          * rewrite app_nil_r. change (len (@nil Z)) with 0. rewrite Z.add_0_r. reflexivity.
          * destruct (data_of (q_tile p) done); reflexivity.
      - destruct (HI i Hi) as [X Y]. split; [apply counts_other; assumption |]. rewrite closed_other, data_app, data_other, app_nil_r by assumption. exact Y. }
    rewrite HC in K3. cbn [andb].
    destruct (closed (q_tile p) (done ++ [p])) eqn:EC.
    + (* the last one *)
      assert (MB : Forall (fun q => q_tile q <> d_cur d2) b).
      { rewrite K2. apply mine_nil, len0. unfold closed in EC. apply andb_prop in EC. destruct EC as [_ EC]. apply Z.eqb_eq in EC.
        rewrite mine_app, mine_one, len_app in EC. change (len [p]) with 1 in EC. lia. }
      destruct (no_correction handle nb wanted seekable b d2 s2 ZB MB A2 K7) as (d3 & E3 & G1 & G2 & G3 & G4 & G5 & G6 & G7).
      exists d3, s2. split; [exact A2 |]. split; [exact A3 |]. rewrite E3. rewrite G3, K3. split; [reflexivity |].
      unfold ready. rewrite G1, G2, G3, G4, G5, G6, G7. do 7 (split; [first [assumption | congruence] |]). exact T2.
    + assert (EK : check_parts nb seekable d2 s2 = Done (d2, s2)) by (unfold check_parts; rewrite K3; reflexivity).
      exists d2, s2. split; [exact A2 |]. split; [exact A3 |]. rewrite EK, K3. split.
      * intros bs s3 Et. rewrite Et. reflexivity.
      * split; [| unfold idle; auto]. intros i Hi. destruct (T2 i Hi) as [X Y]. split; [exact X |].
        destruct (Z.eqb_spec i (q_tile p)) as [-> | Ni]; [| exact Y]. rewrite W, EC. exact Y.
  - (* to be skipped *)
    destruct (part_unwanted handle nb wanted p (length (s_src s)) d s (body b) Z0 HD HN W HA) as
      (d1 & s1 & E1 & D1 & D2 & A2 & A3 & K1 & K2 & K3 & K4 & K5).
    rewrite E1, D1, D2. change (16 =? st_NEOC) with false. rewrite andb_false_r. cbn [andb].
    exists (set_skip false (set_can false (set_state st_TPHSOT d1))), s1. split; [exact A2 |]. split; [exact A3 |]. split.
    + intros bs s3 Et. cbn [set_skip set_can set_state d_can]. rewrite Et. reflexivity.
    + split; [| unfold idle; cbn [set_skip set_can set_state d_state d_can d_last d_skip d_corr]; auto].
      intros i Hi. cbn [set_skip set_can set_state d_tcps]. rewrite K5. destruct (Z.eqb_spec i (q_tile p)) as [-> | Ni].
      * rewrite W. cbn [andb]. unfold counted. cbn [andb] in F1, F2, F3. split; [| unfold full; cbn [t_bytes t_size t_buf]; auto].
        unfold counts. cbn [t_part t_parts t_par]. rewrite mine_app, mine_one, len_app, told_snoc, C2, N. change (len [p]) with 1.
        split; [lia |]. split; [| rewrite W; discriminate]. destruct (Z.eqb_spec (q_of p) 0); cbn [negb]; [rewrite orb_false_r; reflexivity |].
        rewrite orb_true_r. destruct O; [contradiction | assumption].
      * destruct (HI i Hi) as [X Y]. split; [apply counts_other; assumption |]. rewrite closed_other, data_app, data_other, app_nil_r by assumption. exact Y.
Qed.

(** *** Up to the next complete tile *)

Definition entry (b : list part) (m : Z) (s : stream) : Prop :=
  match b with [] => m = EOC /\ at_ s [] | p :: b => m = SOT /\ at_ s (skipn 2 (part_bytes p) ++ body b) end.

Lemma enter : forall b s, at_ s (body b) -> exists bs s', take 2 s = (Some bs, s') /\ entry b (from_be bs) s' /\ s_src s' = s_src s.
Proof.
  intros b s HA. destruct b as [| p b].
  - unfold body in HA. cbn [flat_map app] in HA. rewrite <- (app_nil_r (be 2 65497)) in HA.
    destruct (take_at 2 _ _ _ HA (len_be 2 _ ltac:(lia))) as (s1 & E1 & HA1 & HS1). exists (be 2 65497), s1. split; [exact E1 |].
    split; [| exact HS1]. split; [reflexivity | exact HA1].
  - rewrite body_cons in HA. destruct (take_at 2 _ _ _ HA (len_be 2 _ ltac:(lia))) as (s1 & E1 & HA1 & HS1). exists (be 2 SOT), s1.
    split; [exact E1 |]. split; [| exact HS1]. split; [reflexivity | exact HA1].
Qed.

Lemma parts_run : forall b done (d : dec) s m fuel, all = done ++ b -> inv done d -> idle d -> entry b m s -> (length b < fuel)%nat ->
  (exists (d' : dec) s', read_parts fuel m d s = Done (EOC, d', s') /\ inv all d' /\ idle d' /\ fin b = []) \/
  (exists a p b' (d' : dec) s', b = a ++ p :: b' /\ read_parts fuel m d s = Done (SOD, d', s') /\ fin b = q_tile p :: fin b' /\
     wanted (q_tile p) = true /\ closed (q_tile p) (done ++ a ++ [p]) = true /\
     ready (done ++ a ++ [p]) (q_tile p) d' /\ at_ s' (body b')).
Proof.
  induction b as [| p b IH]; intros done d s m fuel E HI HD HE HF; (destruct fuel as [| fuel]; [cbn [length] in HF; lia |]).
  - destruct HE as [-> HA]. left. exists d, s. cbn [PartModel.read_parts]. change (EOC =? EOC) with true. rewrite orb_true_r.
    rewrite app_nil_r in E. split; [reflexivity |]. split; [rewrite E; exact HI |]. split; [exact HD | reflexivity].
  - destruct HE as [-> HA]. destruct (step done p b d s fuel E HI HD HA) as (d' & s' & A1 & A2 & K). rewrite (fin_cons done p b E).
    destruct (wanted (q_tile p) && closed (q_tile p) (done ++ [p])) eqn:EW.
    + right. apply andb_prop in EW. destruct EW as [W EC]. destruct K as [K1 K2]. exists [], p, b, d', s'. cbn [app]. auto 10.
    + destruct K as (K1 & K2 & K3). destruct (enter b s' A1) as (bs & s2 & E2 & HE2 & HS2). rewrite (K1 _ _ E2).
      assert (EB : all = (done ++ [p]) ++ b) by (rewrite <- app_assoc; exact E).
      destruct (IH (done ++ [p]) d' s2 (from_be bs) fuel EB K2 K3 HE2 ltac:(cbn [length] in HF; lia)) as
        [(d3 & s3 & G1 & G2 & G3 & G4) | (a & q & b' & d3 & s3 & G1 & G2 & G3 & G4 & G5 & G6 & G7)].
      * left. exists d3, s3. auto.
      * right. exists (p :: a), q, b', d3, s3. rewrite <- app_assoc in G5, G6. cbn [app] in *. subst b. auto 10.
Qed.

(** *** The loop *)

Definition remaining : list Z := filter (fun i => wanted i && negb (told i all) && negb (len (mine i all) =? 0)) (tiles nb).

Lemma closed_all : forall i, closed i all = told i all.
Proof. intros i. unfold closed. rewrite Z.eqb_refl. apply andb_true_r. Qed.

Lemma full_has : forall l (d : dec) i, full l (d_tcps d i) -> has d i = negb (len l =? 0).
Proof.
  intros l d i (F1 & F2 & F3). unfold has. rewrite F3. destruct l; [reflexivity |]. unfold len. cbn [length]. symmetry. rewrite (proj2 (Z.eqb_neq _ _)) by lia. reflexivity.
Qed.

Lemma full_use : forall i c t (d : dec), d_tcps d i = t -> full (data_of i all) t -> t_par t = c -> use i c (data_of i all) = Some (res i) -> usable d i.
Proof.
  intros i c t d ET (F1 & F2 & F3) EC EU room HR. rewrite ET in *. rewrite F3 in HR. rewrite F1, F2, EC.
  destruct (data_of i all) as [| x l] eqn:Q; [discriminate |]. assert (HR2 : room = len (x :: l) + 2) by congruence. split; [lia |]. unfold len. rewrite Nat2Z.id, firstn_all. exact EU.
Qed.

Lemma eoc_run : forall n (d : dec) s, d_state d = 256 -> d_can d = false -> d_cur d = 0 -> inv all d -> (length remaining <= n)%nat ->
  decode_loop n d s = Done (map (fun i => (i, res i)) remaining).
Proof.
  intros n d s HS HC HR HI HL.
  assert (EQ : filter (has d) (upto (Z.to_nat (nb - d_cur d)) (d_cur d)) = remaining).
  { rewrite HR, Z.sub_0_r. unfold remaining, tiles. rewrite <- (upto_tiles (Z.to_nat nb) 0). apply filter_ext_on. intros i Hi. apply upto_in in Hi.
    destruct (HI i ltac:(lia)) as [_ Y]. rewrite (full_has _ _ _ Y). rewrite closed_all.
    destruct (wanted i) eqn:W; [| reflexivity]. destruct (told i all) eqn:T; [reflexivity |]. cbn [andb negb]. f_equal.
    destruct (Z.eqb_spec (len (mine i all)) 0) as [X | X].
    - apply Z.eqb_eq, len0. apply len0 in X. unfold data_of. rewrite X. reflexivity.
    - apply Z.eqb_neq. rewrite len0. rewrite len0 in X. apply Hdata. apply order_in; [exact (proj1 (proj2 Hseq)) | split; [exact W | split; [exact X | lia]]]. }
  assert (N0 : 0 <= nb) by (destruct Hseq; lia).
  rewrite eoc_loop; rewrite ?EQ; try assumption; [reflexivity | lia |].
  rewrite HR. intros i Hi room HB. destruct (HI i ltac:(lia)) as [(_ & _ & C3) Y]. pose proof Y as (F1 & F2 & F3). rewrite closed_all in Y.
  rewrite closed_all in F3. destruct (wanted i && negb (told i all)) eqn:WT; [| rewrite F3 in HB; discriminate].
  apply andb_prop in WT. destruct WT as [W T]. assert (ND : data_of i all <> []) by (intros X; rewrite F3, X in HB; discriminate).
  destruct (Huse i) as (c & U1 & U2).
  { apply order_in; [exact (proj1 (proj2 Hseq)) | split; [exact W | split; [| lia]]]. intros X. apply ND. unfold data_of. rewrite X. reflexivity. }
  refine (full_use i c _ d eq_refl Y _ U2 room HB). specialize (C3 W). congruence.
Qed.

Lemma loop_run : forall n b done (d : dec) s, b <> [] -> all = done ++ b -> inv done d -> idle d -> entry b SOT s ->
  (length (fin b ++ remaining) <= n)%nat ->
  decode_loop n d s = Done (map (fun i => (i, res i)) (fin b ++ remaining)).
Proof.
  induction n as [| n IH]; intros b done d s NB E HI HD HE HL.
  - destruct (fin b ++ remaining); [reflexivity | cbn [length] in HL; lia].
  - assert (Hfuel : (length b < S (S (length (s_src s))))%nat).
    { destruct b as [| p b]; [contradiction |]. destruct HE as [_ HA]. pose proof (at_src _ _ HA) as X. rewrite app_length in X. pose proof (body_len b). cbn [length]. lia. }
    pose proof HD as (I1 & I2 & I3 & I4 & I5).
    destruct (parts_run b done d s SOT _ E HI HD HE Hfuel) as [(d' & s' & G1 & G2 & G3 & G4) | (a & p & b' & d' & s' & G1 & G2 & G3 & G4 & G5 & G6 & G7)].
    + (* EOC *)
      rewrite G4 in *. cbn [app] in *. pose proof G3 as (J1 & J2 & J3 & J4 & J5).
      rewrite <- (eoc_run (S n) (set_state st_EOC (set_cur 0 d')) s'); try reflexivity; try assumption.
      cbn [PartModel.decode_loop]. unfold PartModel.read_tile_header at 1. rewrite I1. change (8 =? st_EOC) with false. change (8 =? st_TPHSOT) with true. cbv iota.
      rewrite G1. cbv iota. rewrite J1. change (EOC =? EOC) with true. change (8 =? st_EOC) with false. cbn [andb negb].
      unfold PartModel.read_tile_header. change (d_state (set_state st_EOC (set_cur 0 d')) =? st_EOC) with true. cbv iota.
      cbn [PartModel.read_parts]. change (EOC =? EOC) with true. rewrite orb_true_r.
      change (d_state (set_state st_EOC (set_cur 0 d')) =? st_EOC) with true. cbn [andb negb]. reflexivity.
    + (* a complete tile *)
      assert (EB : all = (done ++ a ++ [p]) ++ b') by (rewrite <- !app_assoc; cbn [app]; rewrite E, G1; reflexivity).
      destruct G6 as (R1 & R2 & R3 & R4 & R5 & R6 & R7 & R8).
      cbn [PartModel.decode_loop]. unfold PartModel.read_tile_header at 1. rewrite I1. change (8 =? st_EOC) with false. change (8 =? st_TPHSOT) with true. cbv iota.
      rewrite G2. cbv iota. change (SOD =? EOC) with false. cbn [andb]. cbv zeta. rewrite R3. cbn [set_cur d_can]. rewrite R3, R2. cbn [negb andb].
      destruct (Z.leb_spec 0 (q_tile p)); [| lia]. destruct (Z.ltb_spec (q_tile p) nb); [| lia]. cbn [andb negb].
      destruct (R8 (q_tile p) R7) as [(X1 & X2 & X3) X4]. rewrite Z.eqb_refl in X4.
      assert (ED : data_of (q_tile p) (done ++ a ++ [p]) = data_of (q_tile p) all /\ par_of handle (q_tile p) (par (q_tile p)) all = Some (t_par (d_tcps d' (q_tile p)))).
      { assert (MB : mine (q_tile p) b' = []).
        { apply len0. unfold closed in G5. apply andb_prop in G5. destruct G5 as [_ G5]. apply Z.eqb_eq in G5. rewrite (len_all _ _ _ EB) in G5. lia. }
        split.
        - rewrite EB, (data_app _ (done ++ a ++ [p])). unfold data_of at 3. rewrite MB. cbn [flat_map]. rewrite app_nil_r. reflexivity.
        - rewrite EB, par_app, (X3 G4). unfold par_of. rewrite MB. reflexivity. }
      destruct ED as [ED EP]. rewrite ED in X4.
      assert (IO : In (q_tile p) (order nb wanted all)).
      { apply order_in; [exact (proj1 (proj2 Hseq)) | split; [exact G4 | split; [| lia]]]. rewrite EB, !mine_app, mine_one. intros X. apply app_eq_nil in X.
        destruct X as [X _]. apply app_eq_nil in X. destruct X as [_ X]. apply app_eq_nil in X. destruct X as [_ X]. discriminate. }
      destruct (Huse _ IO) as (c & U1 & U2). assert (c = t_par (d_tcps d' (q_tile p))) by congruence. subst c.
      pose proof (full_use _ _ _ d' eq_refl X4 eq_refl U2) as HU. pose proof (full_has _ _ _ X4) as HH.
      rewrite (proj2 (Z.eqb_neq _ _)) in HH by (rewrite len0; apply Hdata; exact IO). unfold has in HH.
      unfold decode_tile. cbn [set_state set_cur d_state d_cur d_tcps]. rewrite R1. change (Z.land (Z.lor 8 st_DATA) st_DATA =? 0) with false.
      rewrite Z.eqb_refl. cbn [negb orb]. destruct (t_buf (d_tcps d' (q_tile p))) as [room |] eqn:EBf; [| discriminate].
      destruct (HU room EBf) as [V1 V2]. destruct (Z.ltb_spec room (t_size (d_tcps d' (q_tile p)))); [lia |]. rewrite V2.
      cbn [set_can set_state set_cur d_state d_cur d_tcps d_can]. change (Z.ldiff (Z.lor 8 st_DATA) st_DATA) with 8.
      change (8 =? st_NEOC) with false. rewrite andb_false_r. change (8 =? st_EOC) with false. cbv iota.
      destruct (enter b' s' G7) as (bs & s2 & E2 & HE2 & HS2). rewrite E2.
      assert (DI : forall st cu, inv (done ++ a ++ [p]) (drop_data (q_tile p)
         (mkDec st cu false (d_last d') (d_len d') (d_skip d') (d_checked d') (d_corr d') (d_tcps d')))).
      { intros st cu i Hi. destruct (R8 i Hi) as [Y1 Y2]. unfold drop_data. cbn [d_tcps]. rewrite EBf. cbn [put set_tcps d_tcps].
        destruct (Z.eqb_spec i (q_tile p)) as [-> | Ni]; [| split; assumption]. rewrite G5, andb_false_r. split; [exact Y1 |].
        unfold full. cbn [t_bytes t_size t_buf]. auto. }
      rewrite G3 in HL |- *. cbn [app length] in HL.
      destruct b' as [| q b'].
      * destruct HE2 as [-> HA2]. change (EOC =? EOC) with true. cbv iota.
        rewrite app_nil_r in EB.
        unfold drop_data at 1. cbn [set_can set_state set_cur d_tcps]. rewrite EBf. cbn [put set_tcps set_state set_cur set_can d_state].
        change (st_EOC =? st_NEOC) with false. rewrite andb_false_r.
        change (fin []) with (@nil Z) in *. cbn [app length] in *. rewrite (eoc_run n); [reflexivity | | | | | lia].
        -- unfold drop_data. cbn [set_can set_state set_cur d_tcps]. rewrite EBf. reflexivity.
        -- unfold drop_data. cbn [set_can set_state set_cur d_tcps]. rewrite EBf. reflexivity.
        -- unfold drop_data. cbn [set_can set_state set_cur d_tcps]. rewrite EBf. reflexivity.
        -- rewrite EB at 1. apply DI.
      * destruct HE2 as [-> HA2]. change (SOT =? EOC) with false. change (SOT =? SOT) with true. cbv iota.
        match goal with |- context [drop_data (q_tile p) ?d0] => set (d1 := drop_data (q_tile p) d0) end.
        assert (D1 : d_state d1 = 8 /\ d_can d1 = false /\ d_last d1 = d_last d' /\ d_skip d1 = d_skip d' /\ d_corr d1 = d_corr d').
        { unfold d1, drop_data. cbn [set_can set_state set_cur d_tcps]. rewrite EBf. cbn. auto. }
        destruct D1 as (D1 & D2 & D3 & D4 & D5). rewrite D1. change (8 =? st_NEOC) with false. rewrite andb_false_r.
        rewrite (IH (q :: b') (done ++ a ++ [p]) d1 s2); [reflexivity | discriminate | exact EB | apply DI | | split; [reflexivity | exact HA2] | lia].
        unfold idle. rewrite D3, D4, D5. auto.
Qed.

Lemma run : all <> [] ->
  decode_tiles handle use nb wanted strict seekable fails par (skipn 2 (body all)) = Done (map (fun i => (i, res i)) (order nb wanted all)).
Proof.
  intros NA. unfold decode_tiles. change (order nb wanted all) with (fin all ++ remaining).
  assert (HP : Forall (part_ok nb all) all) by exact (proj1 (proj2 Hseq)).
  apply (loop_run _ all []); [exact NA | reflexivity | | unfold idle, start; cbn; auto | | exact (order_length nb wanted all HP)].
  - intros i Hi. unfold start, counts, full. cbn [d_tcps t_part t_parts t_par t_bytes t_size t_buf].
    change (data_of i []) with (@nil Z). replace (if wanted i && negb (closed i []) then [] else []) with (@nil Z) by (destruct (wanted i && negb (closed i [])); reflexivity).
    repeat split.
  - destruct all as [| p b]; [contradiction |]. split; [reflexivity |]. rewrite body_cons. change 2%nat with (length (be 2 SOT)) at 1. rewrite skipn_app_len.
    unfold at_, rest, size_of. cbn [s_src s_pos s_off]. split; [reflexivity |]. split; [lia | reflexivity].
Qed.

End Run.
