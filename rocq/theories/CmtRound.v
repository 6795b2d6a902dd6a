(** The segments of a custom transform as written and as read. *)

From Coq Require Import ZArith List Bool Lia.
From Verif Require Import Ints CioModel CioProps HdrModel HdrBytes CmtModel CmtSpec CmtFloat CmtSafe.
Import ListNotations.
Local Open Scope Z_scope.

(** ** Fields *)
Lemma be1 : forall v, 0 <= v < 256 -> be 1 v = [v].
Proof. intros v H. unfold be, to_be4. cbn [skipn Nat.sub]. rewrite byte_eq by lia. change (256 ^ 0) with 1. rewrite Z.div_1_r, Z.mod_small by lia. reflexivity. Qed.
Lemma be2 : forall v, 0 <= v < 65536 -> be 2 v = w16 v.
Proof.
  intros v H. unfold be, to_be4, w16. cbn [skipn Nat.sub]. rewrite !byte_eq by lia. change (256 ^ 0) with 1. change (256 ^ 1) with 256. rewrite Z.div_1_r.
  rewrite (Z.mod_small (v / 256)); [reflexivity |]. split; [apply Z.div_pos; lia | apply Z.div_lt_upper_bound; lia].
Qed.
Lemma be4 : forall v, 0 <= v < 2 ^ 32 -> be 4 v = w32 v.
Proof.
  intros v H. unfold be, to_be4, w32. cbn [skipn Nat.sub]. rewrite !byte_eq by lia. change (256 ^ 0) with 1. change (256 ^ 1) with (2 ^ 8). change (256 ^ 2) with (2 ^ 16).
  change (256 ^ 3) with (2 ^ 24). rewrite Z.div_1_r.
  rewrite (Z.mod_small (v / 2 ^ 24)); [reflexivity |]. split; [apply Z.div_pos; lia | apply Z.div_lt_upper_bound; [lia |]]. change (2 ^ 24 * 256) with (2 ^ 32). lia.
Qed.
Lemma rd_w16 : forall v r, 0 <= v < 65536 -> rd 2 (w16 v ++ r) = Some (v, r).
Proof. intros v r H. rewrite <- be2 by exact H. apply rd2. exact H. Qed.
Lemma rd_w32 : forall v r, 0 <= v < 2 ^ 32 -> rd 4 (w32 v ++ r) = Some (v, r).
Proof. intros v r H. rewrite <- be4 by exact H. apply rd4. exact H. Qed.
Lemma rd_w8 : forall v r, 0 <= v < 256 -> rd 1 (v :: r) = Some (v, r).
Proof. intros v r H. change (v :: r) with ([v] ++ r). rewrite <- be1 by exact H. apply rd1. exact H. Qed.
Lemma w32_len : forall l, length (flat_map w32 l) = (4 * length l)%nat.
Proof. induction l as [| v l IH]; [reflexivity |]. cbn [flat_map w32 length app]. change (length (w32 v ++ flat_map w32 l)) with (4 + length (flat_map w32 l))%nat. rewrite IH. lia. Qed.
Lemma w32_put : forall l, Forall (fun v => 0 <= v < 2 ^ 32) l -> put_floats l = flat_map w32 l.
Proof.
  induction l as [| v l IH]; intros H; [reflexivity |]. inversion H; subst. cbn [put_floats flat_map]. unfold put_floats in IH. rewrite IH by assumption.
  rewrite <- (be4 v) by assumption. reflexivity.
Qed.
Lemma w32_bytes : forall l, Forall (fun v => 0 <= v < 2 ^ 32) l -> Forall is_byte (flat_map w32 l).
Proof.
  induction l as [| v l IH]; intros H; [constructor |]. inversion H; subst. cbn [flat_map]. rewrite <- (be4 v) by assumption. apply Forall_app. split; [apply be_bytes | apply IH; assumption].
Qed.
Lemma w16_bytes : forall v, 0 <= v < 65536 -> Forall is_byte (w16 v).
Proof. intros v H. rewrite <- be2 by exact H. apply be_bytes. Qed.

Lemma elems_floats : forall l, Forall (fun v => 0 <= v < 2 ^ 32) l -> elems (elem_float 2) (length l) (flat_map w32 l) = Some l.
Proof.
  induction l as [| v l IH]; intros H; [reflexivity |]. inversion H; subst. cbn [length elems flat_map].
  change (elem_float 2 (w32 v ++ flat_map w32 l)) with (rd 4 (w32 v ++ flat_map w32 l)). rewrite rd_w32 by assumption. rewrite IH by assumption. reflexivity.
Qed.
Lemma elems_ints : forall dc o, Forall2 float_bits dc o -> Forall (fun v => Z.abs v <= 2 ^ 24) dc ->
  elems (elem_int 2) (length dc) (flat_map w32 o) = Some dc /\ Forall (fun v => 0 <= v < 2 ^ 32) o.
Proof.
  intros dc o F. induction F as [| v b dc o E F IH]; intros H; [split; [reflexivity | constructor] |]. inversion H; subst. destruct (bits_back v b ltac:(assumption) E) as [B1 B2].
  destruct (IH ltac:(assumption)) as [I1 I2]. split; [| constructor; assumption]. cbn [length elems flat_map].
  change (elem_int 2 (w32 b ++ flat_map w32 o)) with (match rd 4 (w32 b ++ flat_map w32 o) with Some (v, d) => Some (i32_of_f32 v, d) | None => None end).
  rewrite rd_w32 by exact B2. rewrite I1, B1. reflexivity.
Qed.

(** ** Reading *)
Definition comp_ok (c : Z * Z) : Prop := 1 <= fst c <= 31 /\ (snd c = 0 \/ snd c = 1).

Lemma def_bits : forall c, comp_ok c -> 0 <= 128 * snd c + (fst c - 1) < 256 /\ Z.land (128 * snd c + (fst c - 1)) 127 + 1 = fst c /\
  Z.land (Z.shiftr (128 * snd c + (fst c - 1)) 7) 1 = snd c.
Proof.
  intros [p s] [H1 H2]. cbn [fst snd] in *. split; [lia |]. change 127 with (Z.ones 7). rewrite Z.land_ones by lia. rewrite Z.shiftr_div_pow2 by lia.
  change (2 ^ 7) with 128.
  assert (O : forall x, Z.land x 1 = x mod 2) by (intros x; change 1 with (Z.ones 1); rewrite Z.land_ones by lia; reflexivity). rewrite O.
  assert (D : (128 * s + (p - 1)) / 128 = s) by (rewrite Z.mul_comm, Z.div_add_l by lia; rewrite Z.div_small by lia; lia).
  assert (M : (128 * s + (p - 1)) mod 128 = p - 1) by (rewrite (Z.mul_comm 128), (Z.add_comm _ (p - 1)), Z.mod_add by lia; apply Z.mod_small; lia).
  rewrite D, M. split; [lia |]. apply Z.mod_small. lia.
Qed.
Lemma read_defs_map : forall l, Forall comp_ok l -> read_defs (length l) (map (fun c => 128 * snd c + (fst c - 1)) l) = Some (Some l).
Proof.
  induction l as [| c l IH]; intros H; [reflexivity |]. inversion H as [| ? ? Hc Hl]; subst. cbn [length map read_defs].
  destruct (def_bits c Hc) as (B1 & B2 & B3). rewrite rd_w8 by exact B1. cbv zeta. rewrite B2, B3. destruct Hc as [Hp _].
  destruct (Z.ltb_spec 31 (fst c)); [lia |]. rewrite IH by exact Hl. destruct c. reflexivity.
Qed.
Lemma read_cbd_body : forall comps0 comps, length comps0 = length comps -> (length comps <= 127)%nat -> Forall comp_ok comps ->
  read_cbd comps0 (cbd_body comps) = Some (Some comps).
Proof.
  intros comps0 comps E L H. unfold read_cbd, cbd_body, len. rewrite app_length, map_length. cbn [w16 length Nat.add].
  rewrite u32_id by (change (2 ^ 32) with 4294967296; lia). destruct (Z.eqb_spec (Z.of_nat (S (S (length comps)))) (Z.of_nat (length comps0) + 2)); [cbn [negb] | lia].
  change (?a :: ?b :: map ?f comps) with (w16 (Z.of_nat (length comps)) ++ map f comps). rewrite rd_w16 by lia.
  destruct (Z.eqb_spec (Z.of_nat (length comps)) (Z.of_nat (length comps0))); [cbn [negb] | lia]. rewrite E. apply read_defs_map. exact H.
Qed.

Definition has (t : cmt) (r : mrec) : Prop := In r (firstn (nmct t) (mcts t)).

Lemma in_put : forall A (x : A) i l, In x (put i x l).
Proof. intros. unfold put. apply in_or_app. right. left. reflexivity. Qed.
Lemma in_put_other : forall A (x y z : A) i l, nth_error l i = Some y -> In z l -> z <> y -> In z (put i x l).
Proof.
  intros A x y z i l N I Q. unfold put. apply In_nth_error in I. destruct I as (k & K). apply in_or_app.
  destruct (Nat.lt_trichotomy k i) as [C | [-> | C]].
  - left. apply (nth_error_In _ k). rewrite nth_first by exact C. exact K.
  - congruence.
  - right. right. apply (nth_error_In _ (k - S i)). rewrite nth_skip. replace (S i + (k - S i))%nat with k by lia. exact K.
Qed.
Lemma mct_flags : forall index kind elem, 0 <= index < 256 -> 0 <= kind < 4 -> 0 <= elem < 4 ->
  exists im, 0 <= im < 65536 /\ [4 * elem + kind; index] = w16 im /\ Z.land im 255 = index /\ Z.land (Z.shiftr im 8) 3 = kind /\ Z.land (Z.shiftr im 10) 3 = elem.
Proof.
  intros index kind elem H1 H2 H3. exists (256 * (4 * elem + kind) + index). split; [lia |]. unfold w16.
  assert (D : (256 * (4 * elem + kind) + index) / 256 = 4 * elem + kind) by (rewrite Z.mul_comm, Z.div_add_l by lia; rewrite Z.div_small by lia; lia).
  assert (M : (256 * (4 * elem + kind) + index) mod 256 = index) by (rewrite (Z.mul_comm 256), (Z.add_comm _ index), Z.mod_add by lia; apply Z.mod_small; lia).
  rewrite D, M. split; [reflexivity |]. change 255 with (Z.ones 8). change 3 with (Z.ones 2). rewrite !Z.land_ones by lia. rewrite !Z.shiftr_div_pow2 by lia.
  change (2 ^ 10) with (256 * 4). change (2 ^ 8) with 256. change (2 ^ 2) with 4. rewrite <- Z.div_div by lia. rewrite D, M. split; [reflexivity |].
  split; [rewrite (Z.mul_comm 4), (Z.add_comm _ kind), Z.mod_add by lia; apply Z.mod_small; lia |].
  rewrite (Z.mul_comm 4), Z.div_add_l by lia. rewrite (Z.div_small kind 4) by lia. rewrite Z.add_0_r. apply Z.mod_small. lia.
Qed.
Lemma read_mct_body : forall n t index kind elem data, wf n t -> 0 <= index < 256 -> 0 <= kind < 4 -> 0 <= elem < 4 -> Forall is_byte data -> data <> [] ->
  exists t', read_mct t (mct_body index kind elem data) = Some (Some t') /\ wf n t' /\ nmcc t' = nmcc t /\ has t' (MRec index kind elem (Some data)) /\
    (forall r, r_index r <> index -> has t r -> has t' r).
Proof.
  intros n t index kind elem data W H1 H2 H3 B N. destruct (mct_flags index kind elem H1 H2 H3) as (im & Him & Eim & I1 & I2 & I3).
  unfold mct_body. rewrite Eim. unfold read_mct, len. rewrite !app_length. cbn [w16 length]. assert (1 <= length data)%nat by (destruct data; [contradiction | cbn [length]; lia]).
  destruct (Z.ltb_spec (Z.of_nat (2 + (2 + (2 + length data)))) 2); [lia |]. destruct (Z.leb_spec (Z.of_nat (2 + (2 + (2 + length data)))) 6); [lia |].
  fold (w16 0). fold (w16 im). rewrite (rd_w16 0) by lia. cbn [Z.eqb negb]. rewrite (rd_w16 im) by exact Him. rewrite (rd_w16 0) by lia. rewrite I1, I2, I3. cbn [Z.eqb].
  set (r := MRec index kind elem (Some data)). assert (R : rec_ok r) by (split; [exact H1 | split; [exact B | cbn [r_elem r]; lia]]).
  assert (Q := w_mct _ _ W). destruct (find_spec _ r_index (mcts t) (nmct t) 0 index ltac:(lia)) as (j & F & _). rewrite F.
  destruct (found _ r_index (mcts t) (nmct t) index j ltac:(lia) F) as [[-> Nin] | [J (r0 & N0 & X)]].
  - rewrite Nat.eqb_refl. destruct (new_mct_ok n t r W R Nin) as (t1 & t2 & T1 & T2 & W2 & P & _ & M). rewrite T1, T2.
    exists t2. split; [reflexivity |]. split; [exact W2 |]. split; [exact M |]. unfold has. rewrite P. split; [apply in_or_app; right; left; reflexivity |].
    intros r' _ I. apply in_or_app. left. exact I.
  - destruct (Nat.eqb_spec j (nmct t)); [lia |]. destruct (old_mct_ok n t j r r0 W R J N0 X) as (t2 & T2 & W2 & P & _ & M). rewrite T2.
    exists t2. split; [reflexivity |]. split; [exact W2 |]. split; [exact M |]. unfold has. rewrite P. split; [apply in_put |].
    intros r' D I. apply (in_put_other _ r r0); [rewrite nth_first by exact J; exact N0 | exact I | intros ->; contradiction].
Qed.

Lemma has_find : forall n t r, wf n t -> has t r -> exists j, find r_index (mcts t) (nmct t) 0 (r_index r) = Some j /\ (j < nmct t)%nat /\ nth_error (mcts t) j = Some r.
Proof.
  intros n t r W H. assert (Q := w_mct _ _ W). destruct (find_spec _ r_index (mcts t) (nmct t) 0 (r_index r) ltac:(lia)) as (j & F & _). exists j. split; [exact F |].
  destruct (found _ r_index (mcts t) (nmct t) (r_index r) j ltac:(lia) F) as [[-> Nin] | [J (r0 & N0 & X)]].
  - exfalso. apply Nin. apply in_map. exact H.
  - split; [exact J |]. rewrite N0. f_equal. unfold has in H. apply In_nth_error in H. destruct H as (k & K).
    assert (Lk : (k < length (firstn (nmct t) (mcts t)))%nat) by (apply nth_error_Some; rewrite K; discriminate).
    assert (Dup := w_rdup _ _ W). rewrite NoDup_nth_error in Dup.
    assert (E : k = j).
    { apply Dup; [rewrite map_length; exact Lk |]. rewrite !nth_error_map, K. rewrite nth_first by exact J. rewrite N0. cbn [option_map]. congruence. }
    subst k. rewrite nth_first in K by exact J. congruence.
Qed.
Lemma in_order_seq : forall k j r, Z.of_nat (j + k) <= 256 -> in_order 1 k (Z.of_nat j) (map Z.of_nat (seq j k) ++ r) = Some (true, r).
Proof.
  induction k as [| k IH]; intros j r H; [reflexivity |]. cbn [seq map in_order app]. rewrite rd_w8 by lia. rewrite Z.eqb_refl.
  replace (Z.of_nat j + 1) with (Z.of_nat (S j)) by lia. apply IH. lia.
Qed.
Lemma array_has : forall n t r, wf n t -> has t r -> r_index r <> 0 -> exists j, array_of t (r_index r) = Some (Some (Some (gen t, j))) /\ nth_error (mcts t) j = Some r /\ (j < nmct t)%nat.
Proof.
  intros n t r W H N. destruct (has_find n t r W H) as (j & F & L & X). exists j. unfold array_of. destruct (Z.eqb_spec (r_index r) 0); [contradiction |].
  rewrite F. destruct (Nat.eqb_spec j (nmct t)); [lia |]. repeat split; assumption.
Qed.
Lemma rd3 : forall a b c, 0 <= a < 256 -> 0 <= b < 256 -> 0 <= c < 256 -> rd 3 [a; b; c] = Some (a * 65536 + b * 256 + c, []).
Proof.
  intros a b c Ha Hb Hc. unfold rd. cbn [length Nat.ltb Nat.leb firstn skipn]. f_equal. f_equal. rewrite from_be_value by (repeat constructor; assumption || lia).
  unfold be_value. cbn [fold_left]. lia.
Qed.

Lemma read_mcc_body : forall n k t r1 r2, wf n t -> nmcc t = 0%nat -> (1 <= k <= 127)%nat -> has t r1 -> has t r2 -> r_index r1 = 1 -> r_index r2 = 2 ->
  exists t' j1 j2, read_mcc t (mcc_body 3 k 1 2) = Some (Some t') /\ nmcc t' = 1%nat /\ gen t' = gen t /\ mcts t' = mcts t /\ nmct t' = nmct t /\
    nth_error (mccs t') 0 = Some (CRec 3 (Z.of_nat k) (Some (gen t, j1)) (Some (gen t, j2)) true) /\
    nth_error (mcts t) j1 = Some r1 /\ nth_error (mcts t) j2 = Some r2 /\ shifts t' = shifts t /\ matrix t' = matrix t.
Proof.
  intros n k t r1 r2 W Z0 Hk H1 H2 I1 I2. unfold mcc_body. set (ks := map Z.of_nat (seq 0 k)).
  assert (Lks : length ks = k) by (unfold ks; rewrite map_length, seq_length; reflexivity).
  set (tail := [1] ++ w16 (Z.of_nat k) ++ ks ++ w16 (Z.of_nat k) ++ ks ++ [0; 2; 1]).
  assert (Lt : length tail = (10 - 2 + 2 * k)%nat).
  { unfold tail. rewrite !app_length, Lks. cbn [w16 length]. lia. }
  change (w16 0 ++ [3] ++ w16 0 ++ w16 1 ++ tail) with (w16 0 ++ 3 :: (w16 0 ++ w16 1 ++ tail)). unfold read_mcc, len.
  assert (Ls : length (w16 0 ++ 3 :: (w16 0 ++ w16 1 ++ tail)) = (15 + 2 * k)%nat) by (cbn [w16 app length]; rewrite Lt; lia).
  rewrite Ls. destruct (Z.ltb_spec (Z.of_nat (15 + 2 * k)) 2); [lia |]. destruct (Z.ltb_spec (Z.of_nat (15 + 2 * k)) 7); [lia |].
  rewrite (rd_w16 0) by lia. cbn [Z.eqb negb]. rewrite (rd_w8 3) by lia. rewrite Z0. cbn [find]. rewrite Nat.eqb_refl. rewrite (rd_w16 0) by lia. rewrite (rd_w16 1) by lia. cbn [Z.eqb negb Z.ltb Z.compare Pos.compare Pos.compare_cont].
  destruct (mcc_room_ok n t W) as (W1 & R1 & R2 & R3 & R4 & R5 & R6). rewrite Z0 in R2, R3.
  assert (R7 : shifts (mcc_room t) = shifts t /\ matrix (mcc_room t) = matrix t) by (unfold mcc_room; destruct (nmcc t =? maxmcc t)%nat; split; reflexivity).
  set (t1 := mcc_room t) in *. clearbody t1.
  assert (Q1 := w_mcc _ _ W1). destruct (nth_error (mccs t1) 0) as [c |] eqn:Ec; [| apply nth_error_None in Ec; lia].
  rewrite (u32_id (Z.of_nat (15 + 2 * k) - 7)) by (change (2 ^ 32) with 4294967296; lia). unfold collection.
  destruct (Z.ltb_spec (Z.of_nat (15 + 2 * k) - 7) 3); [lia |]. unfold tail. change ([1] ++ ?x) with (1 :: x). rewrite (rd_w8 1) by lia. cbn [Z.eqb negb Pos.eqb].
  rewrite (rd_w16 (Z.of_nat k)) by lia.
  assert (Sh : Z.shiftr (Z.of_nat k) 15 = 0) by (rewrite Z.shiftr_div_pow2 by lia; apply Z.div_small; change (2 ^ 15) with 32768; lia).
  assert (La : Z.land (Z.of_nat k) 32767 = Z.of_nat k) by (change 32767 with (Z.ones 15); rewrite Z.land_ones by lia; apply Z.mod_small; change (2 ^ 15) with 32768; lia).
  cbv zeta. rewrite Sh, La. change (1 + 0) with 1. rewrite Z.mul_1_l, Nat2Z.id. change (Z.to_nat 1) with 1%nat.
  rewrite (u32_id (Z.of_nat (15 + 2 * k) - 7 - 3)) by (change (2 ^ 32) with 4294967296; lia). rewrite (u32_id (Z.of_nat k)) by (change (2 ^ 32) with 4294967296; lia).
  rewrite (u32_id (Z.of_nat k + 2)) by (change (2 ^ 32) with 4294967296; lia).
  destruct (Z.ltb_spec (Z.of_nat (15 + 2 * k) - 7 - 3) (Z.of_nat k + 2)); [lia |].
  assert (IO : forall r, in_order 1 k 0 (ks ++ r) = Some (true, r)) by (intros r; exact (in_order_seq k 0 r ltac:(lia))).
  rewrite IO. rewrite (rd_w16 (Z.of_nat k)) by lia. rewrite Sh, La. rewrite Z.eqb_refl. cbn [negb]. change (1 + 0) with 1. rewrite Z.mul_1_l. change (Z.to_nat 1) with 1%nat.
  rewrite (u32_id (Z.of_nat (15 + 2 * k) - 7 - 3 - (Z.of_nat k + 2))) by (change (2 ^ 32) with 4294967296; lia). rewrite (u32_id (Z.of_nat k)) by (change (2 ^ 32) with 4294967296; lia).
  rewrite (u32_id (Z.of_nat k + 3)) by (change (2 ^ 32) with 4294967296; lia).
  destruct (Z.ltb_spec (Z.of_nat (15 + 2 * k) - 7 - 3 - (Z.of_nat k + 2)) (Z.of_nat k + 3)); [lia |].
  rewrite IO. rewrite rd3 by lia. change (0 * 65536 + 2 * 256 + 1) with 513. change (Z.land 513 255) with 1. change (Z.land (Z.shiftr 513 8) 255) with 2.
  change (Z.land (Z.shiftr 513 16) 1 =? 0) with true. rewrite !array_of_set.
  assert (A : forall ix, array_of t1 ix = array_of t ix) by (intros ix; unfold array_of; rewrite R4, R5, R6; reflexivity). rewrite !A.
  destruct (array_has n t r1 W H1 ltac:(lia)) as (j1 & A1 & N1 & L1). rewrite I1 in A1. rewrite A1.
  destruct (array_has n t r2 W H2 ltac:(lia)) as (j2 & A2 & N2 & L2). rewrite I2 in A2. rewrite A2.
  rewrite (u32_id (Z.of_nat (15 + 2 * k) - 7 - 3 - (Z.of_nat k + 2) - (Z.of_nat k + 3))) by (change (2 ^ 32) with 4294967296; lia).
  replace (Z.of_nat (15 + 2 * k) - 7 - 3 - (Z.of_nat k + 2) - (Z.of_nat k + 3)) with 0 by lia. cbn [Z.eqb negb].
  eexists. exists j1, j2. split; [reflexivity |]. rewrite set_set by (cbn [set_mcc mccs]; rewrite put_length; lia). rewrite set_set by lia.
  cbn [count_mcc set_mcc nmcc gen mcts nmct mccs shifts matrix]. rewrite R2. split; [reflexivity |]. split; [exact R4 |]. split; [exact R5 |]. split; [exact R6 |].
  split; [| repeat split; try assumption; apply R7]. rewrite put_nth by lia. reflexivity.
Qed.

Lemma float2_range : forall dc o, Forall2 float_bits dc o -> length dc = length o.
Proof. intros dc o F. induction F; cbn [length]; lia. Qed.

Theorem read_group : forall l comps0 comps m dc o d, let n := length comps in
  (1 <= n <= 127)%nat -> length comps0 = n -> Forall comp_ok comps -> length m = (n * n)%nat -> Forall (fun v => 0 <= v < 2 ^ 32) m ->
  length dc = n -> Forall (fun v => Z.abs v <= 2 ^ 24) dc -> Forall2 float_bits dc o ->
  Forall (fun s => Forall is_byte (snd s) /\ len (snd s) < 65536) l -> Forall (fun s => fst s <> MCC) l ->
  segments (default comps0, comps0) l = Some (Some d) ->
  exists t, segments d (group m o comps) = Some (Some (t, comps)) /\ matrix t = Some m /\ shifts t = dc.
Proof.
  intros l comps0 comps m dc o d n Hn L0 Hc Lm Fm Ld Fd Fo Fl NM E.
  destruct (segments_safe l (default comps0) comps0 (default_wf comps0) Fl ltac:(unfold len; lia)) as [X | (t0 & c0 & X & Lc & W0 & M0)]; rewrite X in E; [discriminate |].
  injection E as <-. specialize (M0 NM). cbn [default nmcc] in M0. rewrite L0 in W0, Lc. unfold group. cbn [segments].
  change (segment (t0, c0) 65400 (cbd_body comps)) with (match read_cbd c0 (cbd_body comps) with Some (Some c) => Some (Some (t0, c)) | Some None => Some None | None => None end).
  rewrite read_cbd_body by (try assumption; fold n; lia).
  destruct (elems_ints dc o Fo Fd) as [EI Fob]. assert (Lo := float2_range dc o Fo).
  destruct (read_mct_body n t0 1 1 2 (flat_map w32 m) W0) as (t1 & E1 & W1 & M1 & H1 & K1); [lia | lia | lia | apply w32_bytes; exact Fm | |].
  { intros V. apply (f_equal (@length Z)) in V. rewrite w32_len in V. cbn [length] in V. nia. }
  change (segment (t0, comps) 65396 (mct_body 1 1 2 (flat_map w32 m))) with
    (match read_mct t0 (mct_body 1 1 2 (flat_map w32 m)) with Some (Some t) => Some (Some (t, comps)) | Some None => Some None | None => None end). rewrite E1.
  destruct (read_mct_body n t1 2 2 2 (flat_map w32 o) W1) as (t2 & E2 & W2 & M2 & H2 & K2); [lia | lia | lia | apply w32_bytes; exact Fob | |].
  { intros V. apply (f_equal (@length Z)) in V. rewrite w32_len in V. cbn [length] in V. lia. }
  change (segment (t1, comps) 65396 (mct_body 2 2 2 (flat_map w32 o))) with
    (match read_mct t1 (mct_body 2 2 2 (flat_map w32 o)) with Some (Some t) => Some (Some (t, comps)) | Some None => Some None | None => None end). rewrite E2.
  set (r1 := MRec 1 1 2 (Some (flat_map w32 m))) in *. set (r2 := MRec 2 2 2 (Some (flat_map w32 o))) in *.
  assert (H1' : has t2 r1) by (apply K2; [discriminate | exact H1]).
  destruct (read_mcc_body n n t2 r1 r2 W2 ltac:(congruence) Hn H1' H2 eq_refl eq_refl) as (t3 & j1 & j2 & E3 & Q1 & Q2 & Q3 & Q4 & Q5 & Q6 & Q7 & Q8 & Q9).
  change (segment (t2, comps) 65397 (mcc_body 3 (length comps) 1 2)) with
    (match read_mcc t2 (mcc_body 3 n 1 2) with Some (Some t) => Some (Some (t, comps)) | Some None => Some None | None => None end). rewrite E3.
  change (segment (t3, comps) 65399 (mco_body 3)) with
    (match read_mco t3 (Z.of_nat n) [1; 3] with Some (Some t) => Some (Some (t, comps)) | Some None => Some None | None => None end).
  assert (Ls : length (shifts t3) = n) by (rewrite Q8; apply W2).
  assert (EM : exists t, read_mco t3 (Z.of_nat n) [1; 3] = Some (Some t) /\ matrix t = Some m /\ shifts t = dc).
  { unfold read_mco. change (len [1; 3] <? 1) with false. cbv iota. rewrite (rd_w8 1) by lia. change (1 <? 1) with false. change (len [1; 3] =? 1 + 1) with true. cbn [negb].
    rewrite Nat2Z.id. unfold set_shifts at 1. rewrite repeat_length. destruct (Nat.leb_spec n (length (shifts t3))); [| lia]. cbn [Z.eqb]. rewrite (rd_w8 3) by lia.
    unfold add_mct, set_matrix. cbn [nmcc mccs gen mcts nmct maxmct maxmcc matrix shifts]. rewrite Q1. cbn [Nat.eqb]. rewrite Q5. cbn [c_index c_nb c_deco c_off]. rewrite !Z.eqb_refl. cbn [negb].
    unfold add_deco. unfold deref at 1. cbn [fst snd gen mcts set_matrix]. rewrite Q2, Q3, Nat.eqb_refl, Q6. unfold r1 at 1 2 3 4. cbn [r_elem rec_bytes r_data].
    unfold len. rewrite w32_len. destruct (sizes_fit 2 (Z.of_nat n) ltac:(lia)) as (S1 & S2 & S3 & S4 & S5). change (elem_size 2) with 4 in *. rewrite S1, S3. cbv zeta. rewrite S4.
    destruct (Z.eqb_spec (Z.of_nat (4 * length m)) (4 * Z.of_nat n * Z.of_nat n)) as [_ | V]; [cbn [negb] | exfalso; apply V; rewrite Lm; lia].
    destruct (Z.eqb_spec (Z.of_nat n * Z.of_nat n * 4) 0); [nia |]. destruct (Z.ltb_spec (Z.of_nat n * Z.of_nat n * 4) (4 * (Z.of_nat n * Z.of_nat n))); [lia |].
    replace (Z.to_nat (Z.of_nat n * Z.of_nat n)) with (length m) by (rewrite Lm; lia). unfold r1. cbn [rec_bytes r_data r_elem]. rewrite elems_floats by exact Fm.
    unfold add_off. unfold deref. cbn [fst snd gen mcts set_matrix]. rewrite Nat.eqb_refl, Q7. unfold r2. cbn [r_elem rec_bytes r_data]. unfold len. rewrite w32_len.
    change (elem_size 2) with 4. rewrite S2, S5. destruct (Z.eqb_spec (Z.of_nat (4 * length o)) (4 * Z.of_nat n)) as [_ | V]; [cbn [negb] | exfalso; apply V; rewrite <- Lo, Ld; lia].
    destruct (Z.eqb_spec (Z.of_nat n * 4) 0); [lia |]. destruct (Z.ltb_spec (Z.of_nat n * 4) (4 * Z.of_nat n)); [lia |].
    rewrite Nat2Z.id. rewrite <- Ld. rewrite EI. unfold set_shifts, set_matrix. cbn [shifts]. rewrite app_length, repeat_length, skipn_length.
    destruct (Nat.leb_spec (length dc) (length dc + (length (shifts t3) - length dc))); [| lia].
    eexists. split; [reflexivity |]. cbn [matrix shifts]. split; [reflexivity |].
    rewrite (skipn_all2 (n := length dc) (shifts t3)) by lia. rewrite app_nil_r. rewrite skipn_all2 by (rewrite repeat_length; lia). apply app_nil_r. }
  destruct EM as (t & -> & Mt & St). exists t. split; [reflexivity |]. split; assumption.
Qed.

(** ** Writing *)
Lemma be3 : forall v, 0 <= v < 2 ^ 24 -> be 3 v = [v / 65536; (v / 256) mod 256; v mod 256].
Proof.
  intros v H. unfold be, to_be4. cbn [skipn Nat.sub]. rewrite !byte_eq by lia. change (256 ^ 0) with 1. change (256 ^ 1) with 256. change (256 ^ 2) with 65536.
  rewrite Z.div_1_r. rewrite (Z.mod_small (v / 65536)); [reflexivity |]. split; [apply Z.div_pos; lia | apply Z.div_lt_upper_bound; [lia |]].
  change (65536 * 256) with (2 ^ 24). lia.
Qed.
Lemma be1_map : forall l, Forall (fun v => 0 <= v < 256) l -> flat_map (be 1) l = l.
Proof. induction l as [| v l IH]; intros H; [reflexivity |]. inversion H; subst. cbn [flat_map]. rewrite be1, IH by assumption. reflexivity. Qed.
Lemma order_bytes : forall n, (n <= 127)%nat -> write_order 1 (Z.of_nat n) = map Z.of_nat (seq 0 n).
Proof.
  intros n H. unfold write_order. rewrite Nat2Z.id. rewrite <- (be1_map (map Z.of_nat (seq 0 n))).
  - rewrite flat_map_concat_map, flat_map_concat_map, map_map. reflexivity.
  - rewrite Forall_map. apply Forall_forall. intros i I. apply in_seq in I. lia.
Qed.
Lemma cbd_byte : forall c, comp_ok c -> be 1 (Z.lor (u32 (Z.shiftl (snd c) 7)) (u32 (fst c - 1))) = [128 * snd c + (fst c - 1)].
Proof.
  intros [p s] [H1 H2]. cbn [fst snd] in *. rewrite (u32_id (p - 1)) by (change (2 ^ 32) with 4294967296; lia).
  assert (E : Z.lor (u32 (Z.shiftl s 7)) (p - 1) = 128 * s + (p - 1)).
  { rewrite Z.shiftl_mul_pow2 by lia. change (2 ^ 7) with 128. rewrite u32_id by (change (2 ^ 32) with 4294967296; lia). rewrite (Z.mul_comm 128).
    assert (D : Z.land (s * 128) (p - 1) = 0); [| rewrite <- Z.lxor_lor by exact D; rewrite <- Z.add_nocarry_lxor by exact D; reflexivity].
    change 128 with (2 ^ 7). rewrite <- Z.shiftl_mul_pow2 by lia. apply Z.bits_inj'. intros i Hi. rewrite Z.land_spec, Z.bits_0.
    destruct (Z.ltb_spec i 7); [rewrite Z.shiftl_spec_low by lia; reflexivity |]. rewrite (Z.bits_above_log2 (p - 1) i); [apply andb_false_r | lia |].
    destruct (Z.eq_dec (p - 1) 0) as [-> | Q]; [cbn; lia |]. apply Z.log2_lt_pow2; [lia |]. assert (2 ^ 7 <= 2 ^ i) by (apply Z.pow_le_mono_r; lia). change (2 ^ 7) with 128 in *. lia. }
  rewrite E. apply be1. lia.
Qed.
Lemma write_cbd_bytes : forall comps, (length comps <= 127)%nat -> Forall comp_ok comps -> write_cbd comps = segment_bytes (65400, cbd_body comps).
Proof.
  intros comps L H. unfold write_cbd, segment_bytes, cbd_body, len. cbn [fst snd]. rewrite app_length, map_length. cbn [w16 length Nat.add].
  rewrite (u32_id (6 + Z.of_nat (length comps))) by (change (2 ^ 32) with 4294967296; lia). rewrite u32_id by (change (2 ^ 32) with 4294967296; lia).
  replace (6 + Z.of_nat (length comps) - 2) with (Z.of_nat (S (S (length comps))) + 2) by lia. change CBD with 65400. rewrite !be2 by lia.
  do 3 f_equal. clear L. induction comps as [| c l IH]; [reflexivity |]. inversion H; subst. cbn [flat_map map]. rewrite cbd_byte, IH by assumption. reflexivity.
Qed.
Lemma write_mct_bytes : forall index kind data, (index = 1 /\ kind = 1 \/ index = 2 /\ kind = 2) -> Z.of_nat (length data) < 65528 ->
  write_mct (MRec index kind 2 (Some data)) = segment_bytes (65396, mct_body index kind 2 data).
Proof.
  intros index kind data H L. unfold write_mct, segment_bytes, mct_body, len. cbn [fst snd rec_bytes r_data r_index r_array r_elem]. rewrite !app_length. cbn [w16 length Nat.add].
  rewrite (u32_id (10 + Z.of_nat (length data))) by (change (2 ^ 32) with 4294967296; lia). rewrite u32_id by (change (2 ^ 32) with 4294967296; lia).
  replace (10 + Z.of_nat (length data) - 2) with (Z.of_nat (S (S (S (S (S (S (length data))))))) + 2) by lia. change MCT with 65396. rewrite (be2 65396), (be2 (Z.of_nat _ + 2)), (be2 0) by lia.
  do 3 f_equal. destruct H as [[-> ->] | [-> ->]]; reflexivity.
Qed.

Lemma floats_of : forall dc, Forall (fun v => Z.abs v <= 2 ^ 24) dc -> Forall2 float_bits dc (map f32_int dc).
Proof. intros dc H. induction H; constructor; [apply f32_int_bits; assumption | assumption]. Qed.

Theorem write_group_bytes : forall m dc comps, let n := length comps in let o := map f32_int dc in
  (1 <= n <= 127)%nat -> Forall comp_ok comps -> length m = (n * n)%nat -> Forall (fun v => 0 <= v < 2 ^ 32) m -> length dc = n -> Forall (fun v => Z.abs v <= 2 ^ 24) dc ->
  exists t, setup (encoder (Some m) dc) (Z.of_nat n) = Some (Some t) /\ write_group t comps = Some (flat_map segment_bytes (group m o comps)).
Proof.
  intros m dc comps n o Hn Hc Lm Fm Ld Fd. destruct (elems_ints dc o (floats_of dc Fd) Fd) as [_ Fo]. assert (Lo : length o = n) by (unfold o; rewrite map_length; exact Ld).
  unfold setup, encoder. cbn [matrix]. destruct (sizes_fit 2 (Z.of_nat n) ltac:(lia)) as (_ & _ & S3 & S4 & S5). rewrite S3. cbv zeta. rewrite S4.
  destruct (Z.eqb_spec (Z.of_nat n * Z.of_nat n * 4) 0); [nia |]. destruct (Z.ltb_spec (Z.of_nat n * Z.of_nat n * 4) (4 * (Z.of_nat n * Z.of_nat n))); [lia |].
  unfold len at 1. destruct (Z.ltb_spec (Z.of_nat (length m)) (Z.of_nat n * Z.of_nat n)); [rewrite Lm in *; lia |]. cbn [orb].
  replace (Z.to_nat (Z.of_nat n * Z.of_nat n)) with (length m) by (rewrite Lm; lia). rewrite firstn_all, w32_put by exact Fm.
  set (r1 := MRec 1 1 2 _).
  change (push_mct (Cmt 0 [] 0 0 [] 0 0 (Some m) dc) r1) with (Some (Cmt 1 (r1 :: repeat mrec0 9) 1 10 [] 0 0 (Some m) dc)). cbv iota. rewrite S5. cbn [shifts].
  destruct (Z.eqb_spec (Z.of_nat n * 4) 0); [lia |]. destruct (Z.ltb_spec (Z.of_nat n * 4) (4 * Z.of_nat n)); [lia |].
  unfold len at 1. destruct (Z.ltb_spec (Z.of_nat (length dc)) (Z.of_nat n)); [lia |]. cbn [orb]. rewrite Nat2Z.id, <- Ld, firstn_all. fold o. rewrite w32_put by exact Fo. rewrite Ld.
  set (r2 := MRec 2 2 2 _).
  change (push_mct (Cmt 1 (r1 :: repeat mrec0 9) 1 10 [] 0 0 (Some m) dc) r2) with (Some (Cmt 1 (r1 :: r2 :: repeat mrec0 8) 2 10 [] 0 0 (Some m) dc)). cbv iota.
  eexists. split; [reflexivity |].
  set (c := CRec (2 + 1) (Z.of_nat n) (Some (1%nat, 0%nat)) (Some (1%nat, 1%nat)) true).
  set (t := count_mcc _). change t with (Cmt 1 (r1 :: r2 :: repeat mrec0 8) 2 10 (c :: repeat crec0 9) 1 10 (Some m) dc). clear t.
  unfold write_group. cbn [length mcts nmct mccs nmcc repeat Nat.ltb Nat.leb orb firstn write_mccs].
  assert (Wm : write_mcc (Cmt 1 (r1 :: r2 :: repeat mrec0 8) 2 10 (c :: repeat crec0 9) 1 10 (Some m) dc) c = Some (segment_bytes (65397, mcc_body 3 n 1 2))).
  { unfold write_mcc. cbn [c c_nb c_deco c_off c_irr c_index]. destruct (Z.ltb_spec 255 (Z.of_nat n)); [lia |].
    change (deref _ (1%nat, 0%nat)) with (Some r1). change (deref _ (1%nat, 1%nat)) with (Some r2). cbn [r_index r1 r2]. f_equal.
    unfold segment_bytes, mcc_body. cbn [fst snd]. rewrite !app_length, !map_length, seq_length. cbn [w16 length Nat.add].
    rewrite (u32_id (Z.of_nat n * 2)) by (change (2 ^ 32) with 4294967296; lia). change (Z.of_nat 1) with 1. rewrite Z.mul_1_r.
    rewrite (u32_id (Z.of_nat n * 2)) by (change (2 ^ 32) with 4294967296; lia). rewrite (u32_id (Z.of_nat n * 2 + 19)) by (change (2 ^ 32) with 4294967296; lia).
    rewrite u32_id by (change (2 ^ 32) with 4294967296; lia). rewrite Z.lor_0_r. rewrite order_bytes by lia.
    replace (Z.of_nat n * 2 + 19 - 2) with (Z.of_nat (S (S (S (S (S (S (S (S (S (S (n + S (S (n + 3))))))))))))) + 2) by lia.
    change MCC with 65397. rewrite !be2 by lia. rewrite !be1 by lia. reflexivity. }
  cbn [repeat] in Wm. rewrite Wm. f_equal. unfold group. cbn [flat_map].
  rewrite write_cbd_bytes by (try exact Hc; fold n; lia). unfold r1, r2. rewrite !write_mct_bytes; [| right; split; reflexivity | rewrite w32_len; lia | left; split; reflexivity | rewrite w32_len, Lm; nia].
  rewrite !app_nil_r, <- !app_assoc. reflexivity.
Qed.
