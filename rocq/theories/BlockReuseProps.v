(** Property C86: code-blocks that are used again. *)

From Coq Require Import ZArith List Bool Arith Lia.
From Verif Require Import Ints BlockReuseModel.
Import ListNotations.
Local Open Scope Z_scope.

(** ** Statement *)

(** What reading packets and decoding may do with a block. *)
Inductive use :=
| UInfo (i : info)                                   (* any numbers but those of the storage *)
| UData (d : option (list Z))                        (* decoded data *)
| USeg (i : nat) (s : seg)                           (* a segment is changed *)
| UInit (mem : bool) (i : nat) (sty : Z) (first : bool)
| UChunk (mem : option (list (Z * Z))) (c : Z * Z)
| UDrop.                                             (* t2.rs:1427, 1472: no chunks *)
Definition use_one (b : block) (u : use) : result block :=
  match u with
  | UInfo i => Got (mkBlock i (b_segs b) (b_max b) (b_chunks b) (b_num b) (b_alloc b) (b_decoded b))
  | UData d => Got (mkBlock (b_info b) (b_segs b) (b_max b) (b_chunks b) (b_num b) (b_alloc b) d)
  | USeg i s =>
      match b_segs b with
      | None => Fault
      | Some l => match put l i s with None => Fault | Some l => Got (mkBlock (b_info b) (Some l) (b_max b) (b_chunks b) (b_num b) (b_alloc b) (b_decoded b)) end
      end
  | UInit mem i sty first => init_seg mem b i sty first
  | UChunk mem c => add_chunk mem b c
  | UDrop => Got (mkBlock (b_info b) (b_segs b) (b_max b) (b_chunks b) 0 (b_alloc b) (b_decoded b))
  end.
(** Segments are made one after the other, the first as the first, and there are
    fewer than 2^31 segments and 2^32 - 1 chunks. *)
Definition allowed (b : block) (u : use) : Prop :=
  match u with
  | USeg i _ => Z.of_nat i < b_max b
  | UInit _ i _ first => Z.of_nat i <= b_max b /\ Z.of_nat i < 2 ^ 31 /\ (i = 0%nat -> first = true)
  | UChunk _ _ => b_num b < 2 ^ 32 - 1
  | _ => True
  end.

(** The precincts that tiles and uses lead to. A use is of a block that was
    prepared for this or an earlier tile. *)
Inductive reach : prec -> Prop :=
| reach_new : reach (mkPrec None 0)
| reach_tile : forall p mem mems places p', reach p -> next mem mems p places = Got p' -> reach p'
| reach_use : forall p l k b u b' l', reach p -> p_blocks p = Some l -> nth_error l k = Some b -> b_segs b <> None -> allowed b u ->
    use_one b u = Got b' -> put l k b' = Some l' -> reach (mkPrec (Some l') (p_size p)).

(** A block as new, but for the room it may have: nothing of an earlier tile is left. *)
Definition fresh (r : Z * Z * Z * Z) (b : block) : Prop :=
  let '(x0, y0, x1, y1) := r in
  b_info b = mkInfo x0 y0 x1 y1 0 0 0 0 0 0 /\ (exists n, b_segs b = Some (repeat zero_seg n) /\ b_max b = Z.of_nat n /\ (10 <= n)%nat) /\
  b_num b = 0 /\ b_decoded b = None.

(** ** Blocks *)

Definition sane (b : block) : Prop :=
  match b_segs b with
  | None => b = zero_block
  | Some l => b_max b = Z.of_nat (length l) /\ (10 <= length l)%nat /\ b_max b <= 2 ^ 31 + 10 /\
      0 <= b_num b <= b_alloc b /\ Z.of_nat (length (b_chunks b)) = b_alloc b /\ exists k, 0 <= k <= 32 /\ b_alloc b = 2 ^ k - 1
  end.

Lemma put_some : forall {A} (l : list A) i x, (i < length l)%nat -> exists l', put l i x = Some l' /\ length l' = length l.
Proof.
  intros A l i x H. unfold put. rewrite (proj2 (Nat.ltb_lt i (length l)) H). eexists. split; [reflexivity |].
  rewrite app_length. cbn [length]. rewrite firstn_length, skipn_length. lia.
Qed.

Lemma put_nth : forall {A} (l : list A) i x l', put l i x = Some l' -> forall j, nth_error l' j = if (j =? i)%nat then Some x else nth_error l j.
Proof.
  intros A l i x l' H j. unfold put in H. destruct (Nat.ltb_spec i (length l)) as [L |]; [| discriminate]. injection H as <-.
  destruct (Nat.eqb_spec j i) as [-> | N].
  - rewrite nth_error_app2; rewrite firstn_length_le by lia; [| lia]. rewrite Nat.sub_diag. reflexivity.
  - destruct (Nat.lt_ge_cases j i).
    + rewrite nth_error_app1 by (rewrite firstn_length_le; lia). rewrite <- (firstn_skipn i l) at 2. rewrite nth_error_app1 by (rewrite firstn_length_le; lia). reflexivity.
    + rewrite nth_error_app2; rewrite firstn_length_le by lia; [| lia]. replace (j - i)%nat with (S (j - S i)) by lia. cbn [nth_error].
      rewrite <- (firstn_skipn (S i) l) at 2. rewrite nth_error_app2; rewrite firstn_length_le by lia; [| lia]. reflexivity.
Qed.

Lemma put_length : forall {A} (l : list A) i x l', put l i x = Some l' -> length l' = length l.
Proof.
  intros A l i x l' H. assert (L : (i < length l)%nat) by (unfold put in H; destruct (Nat.ltb_spec i (length l)); [assumption | discriminate]).
  destruct (put_some l i x L) as (l2 & E & L2). congruence.
Qed.

Lemma put_forall : forall {A} (P : A -> Prop) (l : list A) i x l', put l i x = Some l' -> Forall P l -> P x -> Forall P l'.
Proof.
  intros A P l i x l' H F Px. unfold put in H. destruct (i <? length l)%nat; [| discriminate]. injection H as <-.
  apply Forall_app. split; [| constructor; [exact Px |]].
  - rewrite <- (firstn_skipn i l) in F. apply Forall_app in F. tauto.
  - rewrite <- (firstn_skipn (S i) l) in F. apply Forall_app in F. tauto.
Qed.

Lemma land_bit : forall a k, 0 <= k -> negb (Z.land a (2 ^ k) =? 0) = Z.testbit a k.
Proof.
  intros a k Hk. assert (E : Z.land a (2 ^ k) = if Z.testbit a k then 2 ^ k else 0).
  { apply Z.bits_inj'. intros n Hn. rewrite Z.land_spec, Z.pow2_bits_eqb by lia. destruct (Z.eqb_spec k n) as [<- | N].
    - rewrite andb_true_r. destruct (Z.testbit a k); [rewrite Z.pow2_bits_true by lia; reflexivity | rewrite Z.bits_0; reflexivity].
    - rewrite andb_false_r. destruct (Z.testbit a k); [rewrite Z.pow2_bits_false by lia; reflexivity | rewrite Z.bits_0; reflexivity]. }
  rewrite E. assert (0 < 2 ^ k) by (apply Z.pow_pos_nonneg; lia). destruct (Z.testbit a k); [| reflexivity].
  destruct (Z.eqb_spec (2 ^ k) 0); [lia | reflexivity].
Qed.

Lemma use_sane : forall b u, sane b -> b_segs b <> None -> allowed b u ->
  match use_one b u with Fault => False | Failed => True | Got b' => sane b' end.
Proof.
  intros b u H N A. unfold sane in H. destruct (b_segs b) as [l |] eqn:E; [| congruence]. destruct H as (H1 & H2 & H3 & H4 & H5 & k & H6 & H7).
  destruct u as [i | d | i s | mem i sty first | mem c |]; cbn [use_one allowed] in *.
  - unfold sane. cbn. rewrite E. repeat (split; [assumption |]). eauto.
  - unfold sane. cbn. rewrite E. repeat (split; [assumption |]). eauto.
  - rewrite E. destruct (put_some l i s ltac:(lia)) as (l' & -> & L). unfold sane. cbn. rewrite L. repeat (split; [assumption |]). eauto.
  - destruct A as (A1 & A2 & A3). unfold init_seg. rewrite E. set (g := if b_max b <? Z.of_nat i + 1 then _ else _).
    assert (G : g = None \/ exists l' m, g = Some (l', m) /\ m = Z.of_nat (length l') /\ (i < length l')%nat /\ (10 <= length l')%nat /\ m <= 2 ^ 31 + 10).
    { unfold g. destruct (Z.ltb_spec (b_max b) (Z.of_nat i + 1)) as [L | L].
      - destruct mem; [| left; reflexivity]. right. eexists. eexists. split; [reflexivity |].
        rewrite app_length, firstn_length_le, repeat_length by lia. unfold u32. rewrite Z.mod_small by lia. lia.
      - right. exists l, (b_max b). split; [reflexivity |]. lia. }
    destruct G as [-> | (l' & m & -> & M1 & M2 & M3 & M4)]; [exact I |].
    set (before := if negb (Z.land sty 4 =? 0) || (Z.land sty 1 =? 0) || first then Some 0 else _).
    assert (B : exists p, before = Some p).
    { unfold before. destruct (negb (Z.land sty 4 =? 0) || (Z.land sty 1 =? 0)); cbn [orb]; [eauto |]. destruct first; [eauto |].
      destruct i as [| i]; [discriminate (A3 eq_refl) |]. destruct (nth_error l' i) eqn:Nt; [cbn; eauto |].
      apply nth_error_None in Nt. lia. }
    destruct B as [p ->]. destruct (put_some l' i (mkSeg 0 0 0 (maxpasses sty first p) 0 0) M2) as (l2 & -> & L2).
    unfold sane. cbn. rewrite L2. split; [exact M1 |]. split; [exact M3 |]. split; [exact M4 |]. split; [exact H4 |]. split; [exact H5 |]. eauto.
  - unfold add_chunk. set (g := if b_num b =? b_alloc b then _ else _).
    assert (G : g = None \/ exists l' n, g = Some (l', n) /\ Z.of_nat (length l') = n /\ b_num b < n /\ exists k, 0 <= k <= 32 /\ n = 2 ^ k - 1).
    { unfold g. destruct (Z.eqb_spec (b_num b) (b_alloc b)) as [Q | Q].
      - destruct mem as [junk |]; [| left; reflexivity]. right. eexists. eexists. split; [reflexivity |].
        assert (k < 32) by (destruct (Z.eq_dec k 32); [subst k; change (2 ^ 32) with 4294967296 in *; lia | lia]).
        assert (P1 : 2 ^ (k + 1) = 2 * 2 ^ k) by (rewrite Z.pow_add_r by lia; lia).
        assert (P2 : 2 ^ (k + 1) <= 2 ^ 32) by (apply Z.pow_le_mono_r; lia). assert (P3 : 0 < 2 ^ k) by (apply Z.pow_pos_nonneg; lia).
        assert (U : u32 (u32 (b_alloc b * 2) + 1) = 2 ^ (k + 1) - 1).
        { unfold u32. rewrite Zplus_mod_idemp_l. rewrite Z.mod_small by lia. lia. }
        rewrite U. split; [| split; [lia | exists (k + 1); lia]].
        rewrite app_length, !firstn_length, app_length, repeat_length. lia.
      - right. exists (b_chunks b), (b_alloc b). split; [reflexivity |]. split; [exact H5 |]. split; [lia | eauto]. }
    destruct G as [-> | (l' & n & -> & G1 & G2 & k' & G3 & G4)]; [exact I |].
    destruct (put_some l' (Z.to_nat (b_num b)) c ltac:(lia)) as (l2 & -> & L2). unfold sane. cbn. rewrite E, L2.
    split; [exact H1 |]. split; [exact H2 |]. split; [exact H3 |]. split; [unfold u32; rewrite Z.mod_small by lia; lia |]. split; [exact G1 |]. eauto.
  - unfold sane. cbn. rewrite E. split; [exact H1 |]. split; [exact H2 |]. split; [exact H3 |]. split; [lia |]. split; [exact H5 |]. eauto.
Qed.

Lemma allocate_fresh : forall mem b r, sane b ->
  match dec_allocate mem b with Fault => False | Failed => mem = false | Got b' => fresh r (place r b') /\ sane (place r b') end.
Proof.
  intros mem b [[[x0 y0] x1] y1] H. unfold sane in H. unfold dec_allocate. destruct (b_segs b) as [l |] eqn:E.
  - destruct H as (H1 & H2 & H3 & H4 & H5 & k & H6 & H7). unfold reinit. rewrite H1, Nat2Z.id, Nat.leb_refl, skipn_all, app_nil_r.
    unfold fresh, sane, place. cbn. split.
    + split; [reflexivity |]. split; [exists (length l); auto |]. auto.
    + rewrite repeat_length. split; [reflexivity |]. split; [exact H2 |]. split; [lia |]. split; [lia |]. split; [exact H5 |]. eauto.
  - subst b. destruct mem; [| reflexivity]. unfold fresh, sane, place. cbn. split.
    + split; [reflexivity |]. split; [exists 10%nat; auto |]. auto.
    + repeat (split; [lia |]). exists 0. lia.
Qed.

(** ** Precincts *)

Definition sane_prec (p : prec) : Prop :=
  match p_blocks p with
  | None => p_size p = 0
  | Some l => p_size p = block_bytes * Z.of_nat (length l) /\ p_size p < 2 ^ 32 /\ Forall sane l
  end.

Lemma zero_sane : forall n, Forall sane (repeat zero_block n).
Proof. intros n. apply Forall_forall. intros b H. apply repeat_spec in H. subst b. reflexivity. Qed.

Lemma room_spec : forall mem p n, 0 <= n -> sane_prec p ->
  match room mem p n with
  | Fault => False
  | Failed => mem = false \/ (2 ^ 32 - 1) / block_bytes < n
  | Got p' => sane_prec p' /\ match p_blocks p' with None => n = 0 | Some l => n <= Z.of_nat (length l) end
  end.
Proof.
  unfold block_bytes. intros mem p n Hn H. unfold room, block_bytes. destruct (Z.ltb_spec ((2 ^ 32 - 1) / 80) n) as [L | L]; [right; exact L |].
  change ((2 ^ 32 - 1) / 80) with 53687091 in L. assert (U : u32 (n * 80) = n * 80) by (unfold u32; apply Z.mod_small; lia). rewrite U.
  unfold sane_prec in H. destruct (p_blocks p) as [l |] eqn:E.
  - destruct H as (H1 & H2 & H3). unfold block_bytes in H1. destruct (Z.ltb_spec (p_size p) (n * 80)) as [G | G].
    + destruct mem; [| left; reflexivity]. unfold sane_prec, block_bytes. cbn [p_blocks p_size].
      replace (p_size p / 80) with (Z.of_nat (length l)) by (rewrite H1, (Z.mul_comm 80), Z.div_mul; lia).
      replace (n * 80 - p_size p) with ((n - Z.of_nat (length l)) * 80) by lia. rewrite Z.div_mul, Nat2Z.id, firstn_all by lia.
      rewrite app_length, repeat_length. split; [| lia]. split; [lia |]. split; [lia |]. apply Forall_app. split; [exact H3 | apply zero_sane].
    + unfold sane_prec. rewrite E. unfold block_bytes. split; [auto |]. lia.
  - destruct (Z.ltb_spec 0 n).
    + destruct mem; [| left; reflexivity]. unfold sane_prec, block_bytes. cbn [p_blocks p_size]. rewrite Z.div_mul, repeat_length by lia.
      split; [| lia]. split; [lia |]. split; [lia |]. apply zero_sane.
    + destruct (Z.ltb_spec (p_size p) (n * 80)); [lia |]. unfold sane_prec. rewrite E. split; [exact H | lia].
Qed.

Lemma prepare_spec : forall places mems l i, Forall sane l -> (i + length places <= length l)%nat ->
  match prepare mems l i places with
  | Fault => False
  | Failed => exists k, mems k = false
  | Got l' => length l' = length l /\ Forall sane l' /\
      forall j, if ((i <=? j) && (j <? i + length places))%nat
                then exists r b, nth_error places (j - i) = Some r /\ nth_error l' j = Some b /\ fresh r b
                else nth_error l' j = nth_error l j
  end.
Proof.
  induction places as [| r places IH]; intros mems l i F L; cbn [prepare length] in *.
  - split; [reflexivity |]. split; [exact F |]. intros j. replace ((i <=? j) && (j <? i + 0))%nat with false; [reflexivity |].
    symmetry. rewrite andb_false_iff, Nat.leb_gt, Nat.ltb_ge. lia.
  - destruct (nth_error l i) as [b |] eqn:Nb; [| apply nth_error_None in Nb; lia].
    assert (Sb : sane b) by (rewrite Forall_forall in F; apply F; eapply nth_error_In; exact Nb).
    pose proof (allocate_fresh (mems i) b r Sb) as D. destruct (dec_allocate (mems i) b) as [b1 | |]; [| eauto | exact D].
    destruct D as [D1 D2]. destruct (put_some l i (place r b1) ltac:(lia)) as (l1 & P & Pl). rewrite P.
    specialize (IH mems l1 (S i) (put_forall _ _ _ _ _ P F D2) ltac:(lia)). destruct (prepare mems l1 (S i) places) as [l2 | |]; [| exact IH | exact IH].
    destruct IH as (I1 & I2 & I3). split; [congruence |]. split; [exact I2 |]. intros j. specialize (I3 j).
    destruct (Nat.eq_dec j i) as [-> | N].
    + replace ((S i <=? i) && (i <? S i + length places))%nat with false in I3 by (symmetry; rewrite andb_false_iff, Nat.leb_gt; lia).
      replace ((i <=? i) && (i <? i + S (length places)))%nat with true by (symmetry; rewrite andb_true_iff, Nat.leb_le, Nat.ltb_lt; lia).
      exists r, (place r b1). rewrite Nat.sub_diag. split; [reflexivity |]. split; [| exact D1]. rewrite I3, (put_nth _ _ _ _ P), Nat.eqb_refl. reflexivity.
    + replace ((S i <=? j) && (j <? S i + length places))%nat with ((i <=? j) && (j <? i + S (length places)))%nat in I3
        by (apply eq_true_iff_eq; rewrite !andb_true_iff, !Nat.leb_le, !Nat.ltb_lt; lia).
      destruct ((i <=? j) && (j <? i + S (length places)))%nat eqn:B.
      * apply andb_true_iff in B. rewrite Nat.leb_le, Nat.ltb_lt in B. replace (j - i)%nat with (S (j - S i)) by lia. exact I3.
      * rewrite I3, (put_nth _ _ _ _ P). rewrite (proj2 (Nat.eqb_neq j i) N). reflexivity.
Qed.

Lemma next_spec : forall mem mems p places, sane_prec p ->
  match next mem mems p places with
  | Fault => False
  | Failed => mem = false \/ (exists k, mems k = false) \/ (2 ^ 32 - 1) / block_bytes < Z.of_nat (length places)
  | Got p' => sane_prec p' /\ forall j r, nth_error places j = Some r ->
      exists l b, p_blocks p' = Some l /\ nth_error l j = Some b /\ fresh r b
  end.
Proof.
  intros mem mems p places H. unfold next. pose proof (room_spec mem p (Z.of_nat (length places)) ltac:(lia) H) as R.
  destruct (room mem p _) as [q | |]; [| tauto | exact R]. destruct R as [Q1 Q2]. destruct (p_blocks q) as [l |] eqn:E.
  - unfold sane_prec in Q1. rewrite E in Q1. destruct Q1 as (Q3 & Q4 & Q5). pose proof (prepare_spec places mems l 0 Q5 ltac:(lia)) as P.
    destruct (prepare mems l 0 places) as [l' | |]; [| tauto | exact P]. destruct P as (P1 & P2 & P3). unfold sane_prec. cbn [p_blocks p_size].
    split; [rewrite P1; auto |]. intros j r Hr. specialize (P3 j). assert (Hj : (j < length places)%nat) by (apply nth_error_Some; congruence).
    replace ((0 <=? j) && (j <? 0 + length places))%nat with true in P3 by (symmetry; rewrite andb_true_iff, Nat.leb_le, Nat.ltb_lt; lia).
    destruct P3 as (r' & b & N1 & N2 & N3). rewrite Nat.sub_0_r in N1. assert (r' = r) by congruence. subst r'. exists l', b. auto.
  - destruct places as [| x places]; [| cbn [length] in Q2; lia]. split; [exact Q1 |]. intros j r Hr. destruct j; discriminate.
Qed.

Lemma reach_sane : forall p, reach p -> sane_prec p.
Proof.
  induction 1 as [| p mem mems places p' R IH E | p l k b u b' l' R IH E1 E2 N A U P].
  - reflexivity.
  - pose proof (next_spec mem mems p places IH) as S1. rewrite E in S1. tauto.
  - unfold sane_prec in IH |- *. rewrite E1 in IH. destruct IH as (I1 & I2 & I3). cbn [p_blocks p_size]. rewrite (put_length _ _ _ _ P).
    split; [exact I1 |]. split; [exact I2 |]. apply (put_forall _ _ _ _ _ P I3).
    assert (Sb : sane b) by (rewrite Forall_forall in I3; apply I3; eapply nth_error_In; exact E2).
    pose proof (use_sane b u Sb N A) as V. rewrite U in V. exact V.
Qed.

(** ** Theorems *)

(** Whatever the tiles before had and left: for the next tile nothing outside is
    accessed, and each of its blocks is as new. It fails only without memory or for
    more than 53687091 blocks. *)
Theorem c86_reuse : forall p mem mems places, reach p ->
  match next mem mems p places with
  | Fault => False
  | Failed => mem = false \/ (exists k, mems k = false) \/ 53687091 < Z.of_nat (length places)
  | Got p' => forall j r, nth_error places j = Some r -> exists l b, p_blocks p' = Some l /\ nth_error l j = Some b /\ fresh r b
  end.
Proof.
  intros p mem mems places R. pose proof (next_spec mem mems p places (reach_sane p R)) as S1.
  destruct (next mem mems p places); [tauto | exact S1 | exact S1].
Qed.

(** No use of a block accesses anything outside of its segments and chunks. *)
Theorem c86_use : forall p l k b u, reach p -> p_blocks p = Some l -> nth_error l k = Some b -> b_segs b <> None -> allowed b u -> use_one b u <> Fault.
Proof.
  intros p l k b u R E1 E2 N A F. pose proof (reach_sane p R) as S1. unfold sane_prec in S1. rewrite E1 in S1. destruct S1 as (_ & _ & I3).
  assert (Sb : sane b) by (rewrite Forall_forall in I3; apply I3; eapply nth_error_In; exact E2).
  pose proof (use_sane b u Sb N A) as V. rewrite F in V. exact V.
Qed.

(** A chunk that is added is the last one, and the others stay. *)
Theorem c86_chunks : forall p l k b mem c b', reach p -> p_blocks p = Some l -> nth_error l k = Some b -> b_segs b <> None -> b_num b < 2 ^ 32 - 1 ->
  use_one b (UChunk mem c) = Got b' ->
  b_num b' = b_num b + 1 /\ firstn (Z.to_nat (b_num b')) (b_chunks b') = firstn (Z.to_nat (b_num b)) (b_chunks b) ++ [c].
Proof.
  intros p l k b mem c b' R E1 E2 N A U. pose proof (reach_sane p R) as S1. unfold sane_prec in S1. rewrite E1 in S1. destruct S1 as (_ & _ & I3).
  assert (Sb : sane b) by (rewrite Forall_forall in I3; apply I3; eapply nth_error_In; exact E2).
  unfold sane in Sb. destruct (b_segs b) as [sl |]; [| congruence]. destruct Sb as (_ & _ & _ & H4 & H5 & e & H6 & H7).
  cbn [use_one] in U. unfold add_chunk in U. set (g := if b_num b =? b_alloc b then _ else _) in U.
  assert (G : forall l' n, g = Some (l', n) -> firstn (Z.to_nat (b_num b)) l' = firstn (Z.to_nat (b_num b)) (b_chunks b)).
  { intros l' n. unfold g. destruct (Z.eqb_spec (b_num b) (b_alloc b)) as [Q | Q]; [| intros X; assert (Y : l' = b_chunks b) by congruence; rewrite Y; reflexivity].
    destruct mem as [junk |]; [| discriminate]. intros X. injection X as <- _.
    assert (e < 32) by (destruct (Z.eq_dec e 32); [subst e; change (2 ^ 32) with 4294967296 in *; lia | lia]).
    assert (P1 : 2 ^ (e + 1) = 2 * 2 ^ e) by (rewrite Z.pow_add_r by lia; lia).
    assert (P2 : 2 ^ (e + 1) <= 2 ^ 32) by (apply Z.pow_le_mono_r; lia). assert (P3 : 0 < 2 ^ e) by (apply Z.pow_pos_nonneg; lia).
    assert (V : u32 (u32 (b_alloc b * 2) + 1) = 2 ^ (e + 1) - 1) by (unfold u32; rewrite Zplus_mod_idemp_l, Z.mod_small by lia; lia).
    rewrite V. rewrite (firstn_all2 (b_chunks b) (n := Z.to_nat (2 ^ (e + 1) - 1))) by lia. rewrite firstn_app.
    replace (Z.to_nat (b_num b) - length (b_chunks b))%nat with 0%nat by lia. cbn [firstn]. rewrite app_nil_r. reflexivity. }
  destruct g as [[l' n] |]; [| discriminate]. specialize (G l' n eq_refl). destruct (put l' (Z.to_nat (b_num b)) c) as [l2 |] eqn:P; [| discriminate].
  injection U as <-. cbn [b_num b_chunks]. assert (W : u32 (b_num b + 1) = b_num b + 1) by (unfold u32; apply Z.mod_small; lia). rewrite W.
  split; [reflexivity |]. unfold put in P. destruct (Nat.ltb_spec (Z.to_nat (b_num b)) (length l')) as [L |]; [| discriminate]. injection P as <-.
  replace (Z.to_nat (b_num b + 1)) with (Z.to_nat (b_num b) + 1)%nat by lia. rewrite <- G.
  rewrite firstn_app, firstn_firstn. rewrite firstn_length_le by lia. replace (Z.to_nat (b_num b) + 1 - Z.to_nat (b_num b))%nat with 1%nat by lia.
  replace (Nat.min (Z.to_nat (b_num b) + 1) (Z.to_nat (b_num b))) with (Z.to_nat (b_num b)) by lia. reflexivity.
Qed.

(** A segment that is made is empty, and no other changes; segments that are new in
    the array are zero. Its most passes are those of Annex D: one if each pass is
    terminated, else ten, two, one, two, ... in bypass mode. *)
Theorem c86_segment : forall p l k b mem i sty (first : bool) b', reach p -> p_blocks p = Some l -> nth_error l k = Some b ->
  allowed b (UInit mem i sty first) -> use_one b (UInit mem i sty first) = Got b' ->
  exists s s' m, b_segs b = Some s /\ b_segs b' = Some s' /\ nth_error s' i = Some (mkSeg 0 0 0 m 0 0) /\
    (forall j, j <> i -> nth_error s' j = match nth_error s j with Some x => Some x | None => if (j <? length s')%nat then Some zero_seg else None end) /\
    (if Z.testbit sty 2 then m = 1 else if Z.testbit sty 0
     then if first then m = 10 else exists x, nth_error s (i - 1) = Some x /\ (m = 2 <-> s_maxpasses x = 1 \/ s_maxpasses x = 10) /\ (m = 1 \/ m = 2)
     else m = 109).
Proof.
  intros p l k b mem i sty first b' R E1 E2 (A1 & A2 & A3) U. pose proof (reach_sane p R) as S1. unfold sane_prec in S1. rewrite E1 in S1. destruct S1 as (_ & _ & I3).
  assert (Sb : sane b) by (rewrite Forall_forall in I3; apply I3; eapply nth_error_In; exact E2).
  cbn [use_one] in U. unfold init_seg in U. unfold sane in Sb. destruct (b_segs b) as [s |] eqn:E; [| discriminate].
  destruct Sb as (H1 & H2 & H3 & _). set (g := if b_max b <? Z.of_nat i + 1 then _ else _) in U.
  assert (G : forall s1 m1, g = Some (s1, m1) -> (i < length s1)%nat /\
    forall j, nth_error s1 j = match nth_error s j with Some x => Some x | None => if (j <? length s1)%nat then Some zero_seg else None end).
  { intros s1 m1. unfold g. destruct (Z.ltb_spec (b_max b) (Z.of_nat i + 1)) as [L | L].
    - destruct mem; [| discriminate]. intros X. assert (Y : s1 = s ++ repeat zero_seg 10).
      { assert (Y : s1 = firstn (Z.to_nat (b_max b)) s ++ repeat zero_seg 10) by congruence. rewrite Y, H1, Nat2Z.id, firstn_all. reflexivity. }
      rewrite Y, app_length, repeat_length. split; [lia |]. intros j. destruct (nth_error s j) eqn:N.
      + rewrite nth_error_app1; [exact N |]. apply nth_error_Some. congruence.
      + apply nth_error_None in N. rewrite nth_error_app2 by lia. destruct (Nat.ltb_spec j (length s + 10)).
        * apply nth_error_repeat. lia.
        * apply nth_error_None. rewrite repeat_length. lia.
    - intros X. assert (Y : s1 = s) by congruence. rewrite Y. split; [lia |]. intros j. destruct (nth_error s j) eqn:N; [reflexivity |].
      apply nth_error_None in N. destruct (Nat.ltb_spec j (length s)); [lia | reflexivity]. }
  destruct g as [[s1 m1] |]; [| discriminate]. destruct (G s1 m1 eq_refl) as [G1 G2]. clear G.
  set (before := if negb (Z.land sty 4 =? 0) || (Z.land sty 1 =? 0) || first then Some 0 else _) in U.
  destruct before as [q |] eqn:Bf; [| discriminate]. destruct (put s1 i _) as [s2 |] eqn:P; [| discriminate]. injection U as <-. cbn [b_segs].
  exists s, s2, (maxpasses sty first q). split; [reflexivity |]. split; [reflexivity |].
  split; [rewrite (put_nth _ _ _ _ P), Nat.eqb_refl; reflexivity |]. split.
  { intros j Hj. rewrite (put_nth _ _ _ _ P), (proj2 (Nat.eqb_neq j i) Hj), (put_length _ _ _ _ P). apply G2. }
  assert (B4 : negb (Z.land sty 4 =? 0) = Z.testbit sty 2) by apply (land_bit sty 2 ltac:(lia)).
  assert (B1 : negb (Z.land sty 1 =? 0) = Z.testbit sty 0) by apply (land_bit sty 0 ltac:(lia)).
  unfold maxpasses. rewrite B4, B1. unfold before in Bf. rewrite B4 in Bf. destruct (Z.testbit sty 2); [reflexivity |]. cbn [orb] in Bf.
  destruct (Z.testbit sty 0); [| reflexivity]. apply negb_true_iff in B1. rewrite B1 in Bf. cbn [orb] in Bf. destruct first; [reflexivity |].
  destruct i as [| i]; [discriminate |]. specialize (G2 i). destruct (nth_error s i) as [x |] eqn:N; [| apply nth_error_None in N; lia].
  rewrite G2 in Bf. cbn [option_map] in Bf. assert (Q : q = s_maxpasses x) by congruence. exists x. rewrite Nat.sub_succ, Nat.sub_0_r. split; [exact N |].
  rewrite Q. destruct (Z.eqb_spec (s_maxpasses x) 1), (Z.eqb_spec (s_maxpasses x) 10); cbn [orb]; lia.
Qed.

(** Uses fail only without memory; making a segment leaves all but the segments,
    adding a chunk all but the chunks. *)
Theorem c86_keeps : forall b u,
  (use_one b u = Failed -> match u with UInit mem _ _ _ => mem = false | UChunk mem _ => mem = None | _ => False end) /\
  (forall b', use_one b u = Got b' ->
    match u with
    | UInit _ _ _ _ => b_info b' = b_info b /\ b_chunks b' = b_chunks b /\ b_num b' = b_num b /\ b_alloc b' = b_alloc b /\ b_decoded b' = b_decoded b
    | UChunk _ _ => b_info b' = b_info b /\ b_segs b' = b_segs b /\ b_max b' = b_max b /\ b_decoded b' = b_decoded b
    | _ => True
    end).
Proof.
  intros b u. destruct u as [i | d | i s | mem i sty first | mem c |]; cbn [use_one].
  - split; [discriminate | auto].
  - split; [discriminate | auto].
  - split; [| auto]. destruct (b_segs b) as [l |]; [| discriminate]. destruct (put l i s); discriminate.
  - unfold init_seg. destruct (b_segs b) as [l |]; [| split; intros; discriminate].
    destruct (b_max b <? Z.of_nat i + 1); [destruct mem |]; cbv beta iota zeta; try (split; [reflexivity | intros; discriminate]);
    (match goal with |- context [match ?o with Some p => match put _ _ _ with _ => _ end | None => _ end] => destruct o; [| split; intros; discriminate] end);
    (match goal with |- context [put ?a ?c ?e] => destruct (put a c e); [| split; intros; discriminate] end);
    (split; [discriminate |]); intros b' E; inversion E; subst b'; cbn [b_info b_chunks b_num b_alloc b_decoded]; auto.
  - unfold add_chunk. destruct (b_num b =? b_alloc b); [destruct mem as [junk |] |]; cbv beta iota zeta; try (split; [reflexivity | intros; discriminate]);
    (match goal with |- context [put ?a ?c ?e] => destruct (put a c e); [| split; intros; discriminate] end);
    (split; [discriminate |]); intros b' E; inversion E; subst b'; cbn [b_info b_segs b_max b_decoded]; auto.
  - split; [discriminate | auto].
Qed.

(** ** Examples *)

Definition four : list (Z * Z * Z * Z) := [(0, 0, 4, 4); (4, 0, 8, 4)].
(** A block gets three chunks and two segments, and is then used for a third tile. *)
Definition busy (r : result block) (l : list use) : result block :=
  fold_left (fun r u => match r with Got b => use_one b u | r => r end) l r.
Definition some_uses : list use := [UInfo (mkInfo 0 0 4 4 9 8 3 2 2 2); UInit true 0 4 true; UInit true 1 4 false; UChunk (Some [(7, 7)]) (1, 10); UChunk (Some []) (2, 20); UChunk None (3, 30)].
Example c86_ex_use : match busy (dec_allocate true zero_block) some_uses with
  | Got b => (b_num b, b_alloc b, b_chunks b, option_map (map s_maxpasses) (b_segs b)) | _ => (0, 0, [], None) end =
  (3, 3, [(1, 10); (2, 20); (3, 30)], Some [1; 1; 0; 0; 0; 0; 0; 0; 0; 0]).
Proof. vm_compute. reflexivity. Qed.
Example c86_ex_reuse : match busy (dec_allocate true zero_block) some_uses with
  | Got b => match dec_allocate false b with Got b => (b_num b, b_alloc b, b_info b, option_map (map s_maxpasses) (b_segs b)) | _ => (1, 1, zero_info, None) end
  | _ => (1, 1, zero_info, None) end = (0, 3, zero_info, Some (repeat 0 10)).
Proof. vm_compute. reflexivity. Qed.
(** Two blocks, then one, then four. *)
Example c86_ex_tiles : match next true (fun _ => true) (mkPrec None 0) four with
  | Got p => match next false (fun _ => false) p [(8, 0, 9, 4)] with
    | Got p => match next true (fun _ => true) p (four ++ four) with
      | Got p => (p_size p, option_map (map (fun b => i_x1 (b_info b))) (p_blocks p)) | _ => (0, None) end
    | _ => (0, None) end | _ => (0, None) end = (320, Some [4; 8; 4; 8]).
Proof. vm_compute. reflexivity. Qed.

Print Assumptions c86_reuse.
Print Assumptions c86_use.
Print Assumptions c86_chunks.
Print Assumptions c86_segment.
Print Assumptions c86_keeps.
