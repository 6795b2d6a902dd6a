(** Codeword segments of a code-block in a packet: what the encoder's loops
    produce and the decoder's loops find. *)

From Coq Require Import ZArith List Bool Arith Lia ZifyNat.
From Verif Require Import I32 MathModel MathProps ZBits BioModel BioSpec BioProofs BioStream TgtModel T2CodesModel
  T2CodesProofs Ints T2PacketModel T2PacketSpec.
Import ListNotations.
Local Open Scope Z_scope.

Ltac Zify.zify_post_hook ::= Z.div_mod_to_equations.

Definition p0 : pass := mkPass 0 false.
Notation start := seg_start.

Definition cap (sty : Z) (j : nat) : nat := (start sty (S j) - start sty j)%nat.

Lemma start_0 : forall sty, start sty 0 = 0%nat.
Proof. intros. unfold start. destruct (termall sty), (lazy sty); reflexivity. Qed.

Lemma start_step : forall sty j, (start sty j < start sty (S j))%nat.
Proof.
  intros. unfold start. destruct (termall sty); [lia |]. destruct (lazy sty); [| lia].
  destruct j; [cbn; lia |]. lia.
Qed.

Lemma start_mono : forall sty i j, (i <= j)%nat -> (start sty i <= start sty j)%nat.
Proof. intros sty i j H. induction H; [lia |]. pose proof (start_step sty m). lia. Qed.

Lemma start_le : forall sty j, (j <= start sty j)%nat.
Proof. intros sty. induction j; [lia |]. pose proof (start_step sty j). lia. Qed.

Lemma start_lt_iff : forall sty p n, (0 < n)%nat -> (start sty (n - 1) < p <= start sty n)%nat ->
  forall j, (start sty j < p)%nat <-> (j < n)%nat.
Proof.
  intros sty p n Hn H j. split; intros X.
  - destruct (Nat.lt_ge_cases j n) as [| L]; [assumption |]. pose proof (start_mono sty n j L). lia.
  - pose proof (start_mono sty j (n - 1) ltac:(lia)). lia.
Qed.

Lemma cap_cases : forall sty, (forall j, cap sty j = 1%nat) \/
  (termall sty = false /\ lazy sty = true /\ forall j, cap sty j = (if (j =? 0) then 10 else if Nat.odd j then 2 else 1)%nat) \/
  (termall sty = false /\ lazy sty = false /\ forall j, cap sty j = 109%nat).
Proof.
  intros. unfold cap, start. destruct (termall sty); [left; intros; lia |]. right.
  destruct (lazy sty); [left | right]; (split; [reflexivity |]); (split; [reflexivity |]); intros j; [| lia].
  destruct j; [reflexivity |]. cbn [Nat.eqb]. destruct (Nat.odd (S j)) eqn:E.
  - apply Nat.odd_spec in E. destruct E as [q E]. lia.
  - assert (E' : Nat.even (S j) = true) by (unfold Nat.odd in E; destruct (Nat.even (S j)); [reflexivity | discriminate]).
    apply Nat.even_spec in E'. destruct E' as [q E']. lia.
Qed.

Lemma cap_bound : forall sty j, (1 <= cap sty j <= 109)%nat.
Proof.
  intros sty j. destruct (cap_cases sty) as [H | [(_ & _ & H) | (_ & _ & H)]]; rewrite H; try lia.
  destruct (j =? 0)%nat, (Nat.odd j); lia.
Qed.

Lemma init_seg_max : forall sty k first segs,
  (first = true <-> k = 0%nat) -> (k <> 0%nat -> s_max (nth (k - 1) segs seg0) = Z.of_nat (cap sty (k - 1))) ->
  init_seg sty k first segs = firstn k segs ++ [mkSeg 0 0 0 (Z.of_nat (cap sty k)) 0 0].
Proof.
  intros sty k first segs Hf Hp. unfold init_seg. cbv zeta. do 4 f_equal.
  unfold cap, start, termall, lazy in *.
  destruct (negb (Z.land sty 4 =? 0)) eqn:E1; [lia |].
  destruct (negb (Z.land sty 1 =? 0)) eqn:E2; [| lia].
  destruct k as [| k].
  - rewrite (proj2 Hf eq_refl). reflexivity.
  - replace first with false by (destruct first; [discriminate (proj1 Hf eq_refl) | reflexivity]).
    replace (S k - 1)%nat with k in * by lia. rewrite Hp by lia.
    destruct k as [| k]; [reflexivity |].
    match goal with |- context [?a =? 1] => set (x := a) in * end.
    destruct (Z.eqb_spec x 1), (Z.eqb_spec x 10); cbn [orb]; subst x; lia.
Qed.

(** ** Lengths *)

Lemma lsum_app : forall a b, lsum (a ++ b) = lsum a + lsum b.
Proof. induction a as [| p a IH]; intros b; [reflexivity |]. cbn [lsum app fold_right] in *. fold (lsum a) (lsum (a ++ b)). rewrite IH. lia. Qed.

Lemma lsum_nonneg : forall l, Forall (fun p => 0 <= p_len p) l -> 0 <= lsum l.
Proof. induction 1 as [| p l Hp _ IH]; cbn; [lia |]. fold (lsum l). lia. Qed.

Lemma Forall_firstn : forall {A} (P : A -> Prop) n l, Forall P l -> Forall P (firstn n l).
Proof. intros A P n. induction n; intros l H; [constructor |]. destruct H; cbn; constructor; auto. Qed.

Lemma Forall_skipn : forall {A} (P : A -> Prop) n l, Forall P l -> Forall P (skipn n l).
Proof. intros A P n. induction n; intros l H; [assumption |]. destruct H; cbn; auto. Qed.

Lemma lsum_split : forall n l, lsum l = lsum (firstn n l) + lsum (skipn n l).
Proof. intros. rewrite <- lsum_app, firstn_skipn. reflexivity. Qed.

Lemma skipn_skipn : forall {A} a b (l : list A), skipn a (skipn b l) = skipn (b + a) l.
Proof. intros A a b. revert a. induction b; intros a l; [reflexivity |]. destruct l; cbn; [apply skipn_nil | apply IHb]. Qed.

Lemma firstn_add : forall {A} a b (l : list A), firstn (a + b) l = firstn a l ++ firstn b (skipn a l).
Proof. intros A a. induction a; intros b l; [reflexivity |]. destruct l; cbn; [rewrite firstn_nil; reflexivity | f_equal; apply IHa]. Qed.

Lemma nth_skipn_add : forall {A} a b (l : list A) d, nth b (skipn a l) d = nth (a + b) l d.
Proof. intros A a. induction a; intros b l d; [reflexivity |]. destruct l; cbn; [destruct b; reflexivity | apply IHa]. Qed.

Lemma nth_firstn_lt : forall {A} a b (l : list A) d, (b < a)%nat -> nth b (firstn a l) d = nth b l d.
Proof. intros A a. induction a; intros b l d H; [lia |]. destruct l; [reflexivity |]. destruct b; [reflexivity |]. cbn. apply IHa. lia. Qed.

Definition lens_ok (l : list pass) : Prop := Forall (fun p => 0 <= p_len p) l /\ lsum l < 2 ^ 32.

Lemma lens_firstn : forall n l, lens_ok l -> lens_ok (firstn n l).
Proof.
  intros n l [H1 H2]. split; [apply Forall_firstn; assumption |]. rewrite (lsum_split n) in H2.
  pose proof (lsum_nonneg _ (Forall_skipn _ n l H1)). lia.
Qed.
Lemma lens_skipn : forall n l, lens_ok l -> lens_ok (skipn n l).
Proof.
  intros n l [H1 H2]. split; [apply Forall_skipn; assumption |]. rewrite (lsum_split n) in H2.
  pose proof (lsum_nonneg _ (Forall_firstn _ n l H1)). lia.
Qed.

(** ** The encoder's segments *)

Lemma segments_step : forall m ps a len, (1 <= m <= List.length ps)%nat ->
  (forall i, (S i < m)%nat -> p_term (nth i ps p0) = false) ->
  (p_term (nth (m - 1) ps p0) = true \/ m = List.length ps) ->
  0 <= a -> a + Z.of_nat m < 2 ^ 32 -> 0 <= len -> Forall (fun p => 0 <= p_len p) ps ->
  len + lsum (firstn m ps) < 2 ^ 32 ->
  segments ps a len = (a + Z.of_nat m, len + lsum (firstn m ps)) :: segments (skipn m ps) 0 0.
Proof.
  induction m as [| m IH]; intros ps a len Hm Hf Hl Ha Hb Hlen Hp Hs; [lia |].
  destruct ps as [| p ps]; [cbn in Hm; lia |]. inversion Hp as [| ? ? Hp0 Hp']; subst.
  cbn [segments firstn skipn lsum fold_right] in *. fold (lsum (firstn m ps)) in *.
  pose proof (lsum_nonneg _ (Forall_firstn _ m ps Hp')) as Hnn.
  rewrite (u32_id (a + 1)) by lia. rewrite (u32_id (len + p_len p)) by lia.
  destruct m as [| m].
  - replace (p_term p || match ps with [] => true | _ :: _ => false end) with true.
    2: { cbn in Hl. destruct Hl as [-> | Hl]; [reflexivity |]. destruct ps; [destruct (p_term p); reflexivity | cbn in Hl; lia]. }
    cbn [firstn lsum fold_right skipn]. do 2 f_equal; lia.
  - replace (p_term p || match ps with [] => true | _ :: _ => false end) with false.
    2: { pose proof (Hf 0%nat ltac:(lia)) as X. cbn in X. rewrite X. destruct ps; [cbn in Hm; lia | reflexivity]. }
    rewrite IH; try lia; try assumption.
    + do 2 f_equal; lia.
    + cbn [List.length] in Hm. lia.
    + intros i Hi. apply (Hf (S i)). lia.
    + replace (S (S m) - 1)%nat with (S m) in Hl by lia. cbn [nth] in Hl. replace (S m - 1)%nat with m by lia.
      destruct Hl as [Hl | Hl]; [left; exact Hl | right; cbn [List.length] in Hl; lia].
Qed.

Definition flags_ok (sty : Z) (all : list pass) : Prop :=
  forall k, (S k < List.length all)%nat -> (p_term (nth k all p0) = true <-> ends sty k).

(** From pass [p], inside segment [k], with [n] passes to go. *)
Lemma segments_from : forall sty all k p n, flags_ok sty all -> lens_ok all ->
  (start sty k <= p < start sty (S k))%nat -> (1 <= n)%nat -> (p + n <= List.length all)%nat ->
  let m := Nat.min (start sty (S k) - p) n in
  segments (firstn n (skipn p all)) 0 0 =
    (Z.of_nat m, lsum (firstn m (skipn p all))) :: segments (firstn (n - m) (skipn (p + m) all)) 0 0.
Proof.
  intros sty all k p n Hf [Hp Hs] Hk Hn Hlen m.
  assert (Hm : (1 <= m <= n)%nat) by lia.
  assert (Hl : List.length (firstn n (skipn p all)) = n) by (rewrite firstn_length, skipn_length; lia).
  assert (Hc : (m <= 109)%nat).
  { pose proof (cap_bound sty k) as X. unfold cap in X. lia. }
  rewrite (segments_step m).
  - rewrite Z.add_0_l, Z.add_0_l. f_equal.
    + f_equal. rewrite firstn_firstn. replace (Nat.min m n) with m by lia. reflexivity.
    + f_equal. replace n with (m + (n - m))%nat at 1 by lia. rewrite firstn_add, skipn_app, skipn_all2 by (rewrite firstn_length; lia).
      rewrite firstn_length, skipn_length. replace (m - Nat.min m (List.length all - p))%nat with 0%nat by lia.
      rewrite skipn_O, app_nil_l, skipn_skipn. reflexivity.
  - rewrite Hl. lia.
  - intros i Hi. rewrite nth_firstn_lt, nth_skipn_add by lia.
    destruct (p_term (nth (p + i) all p0)) eqn:E; [| reflexivity]. exfalso.
    apply Hf in E; [| lia]. destruct E as [j E].
    assert (start sty k < start sty (S j) < start sty (S k))%nat as [X Y] by lia.
    assert (~ (S j <= k)%nat) by (intros Z; pose proof (start_mono sty _ _ Z); lia).
    assert (~ (S k <= S j)%nat) by (intros Z; pose proof (start_mono sty _ _ Z); lia). lia.
  - rewrite Hl. destruct (Nat.eq_dec m n) as [E | E]; [right; assumption |]. left.
    rewrite nth_firstn_lt, nth_skipn_add by lia. apply Hf; [lia |]. exists k. lia.
  - lia.
  - lia.
  - lia.
  - apply Forall_firstn, Forall_skipn. assumption.
  - rewrite firstn_firstn. destruct (lens_firstn (Nat.min m n) _ (lens_skipn p all (conj Hp Hs))). lia.
Qed.

(** ** Widths *)

Lemma floorlog2_range : forall a, 0 <= a < 2 ^ 31 -> 0 <= floorlog2 a /\ a < 2 ^ (floorlog2 a + 1) /\
  (forall n, 0 < n -> a < 2 ^ n -> floorlog2 a + 1 <= n).
Proof.
  intros a Ha. destruct (Z.eq_dec a 0) as [-> | Hz].
  - change (floorlog2 0) with 0. split; [lia |]. split; [reflexivity |]. intros; lia.
  - pose proof (c29_floorlog2 a ltac:(lia)) as H.
    assert (H0 : 0 <= floorlog2 a).
    { destruct (floorlog2_loop_spec 32 a 0 ltac:(cbn; lia)) as [X _]. exact X. }
    split; [exact H0 |]. split; [lia |]. intros n Hn Hlt.
    destruct (Z.le_gt_cases (floorlog2 a + 1) n); [assumption |].
    pose proof (Z.pow_le_mono_r 2 n (floorlog2 a) ltac:(lia) ltac:(lia)). lia.
Qed.

Definition seg_bounds (l : list (Z * Z)) : Prop := Forall (fun s => 1 <= fst s <= 164 /\ 0 <= snd s < 2 ^ 25) l.

Lemma increment_spec : forall l lenbits, seg_bounds l -> 3 <= lenbits <= 25 ->
  let inc := increment lenbits l in
  0 <= inc /\ lenbits + inc <= 25 /\
  Forall (fun s => snd s < 2 ^ (lenbits + inc + floorlog2 (fst s)) /\ 0 <= floorlog2 (fst s) <= 7) l.
Proof.
  intros l lenbits Hl Hb. unfold increment. rewrite (i32_id lenbits) by (unfold in_i32; lia).
  assert (G : forall l acc, seg_bounds l -> 0 <= acc -> lenbits + acc <= 25 ->
    let inc := fold_left (fun inc (s : Z * Z) =>
      Z.max inc (floorlog2 (i32 (snd s)) + 1 - (lenbits + floorlog2 (i32 (fst s))))) l acc in
    acc <= inc /\ lenbits + inc <= 25 /\
    Forall (fun s => snd s < 2 ^ (lenbits + inc + floorlog2 (fst s)) /\ 0 <= floorlog2 (fst s) <= 7) l).
  { clear l Hl. induction l as [| [m n] l IH]; intros acc Hs Ha Hlb; [cbn; repeat split; try lia; constructor |].
    inversion Hs as [| ? ? [H1 H2] Hs']; subst. cbn [fst snd] in *. cbn [fold_left fst snd].
    rewrite (i32_id n), (i32_id m) by (unfold in_i32; lia).
    destruct (floorlog2_range n ltac:(lia)) as (N1 & N2 & N3). destruct (floorlog2_range m ltac:(lia)) as (M1 & M2 & M3).
    specialize (N3 25 ltac:(lia) ltac:(lia)). specialize (M3 8 ltac:(lia) ltac:(lia)).
    set (a' := Z.max acc (floorlog2 n + 1 - (lenbits + floorlog2 m))).
    destruct (IH a' Hs') as (I1 & I2 & I3); [lia | lia |]. cbv zeta. split; [lia |]. split; [exact I2 |].
    constructor; [| exact I3]. cbn [fst snd]. split; [| lia].
    eapply Z.lt_le_trans; [exact N2 |]. apply Z.pow_le_mono_r; lia. }
  destruct (G l 0 Hl ltac:(lia) ltac:(lia)) as (I1 & I2 & I3). cbv zeta. auto.
Qed.

(** ** The decoder's segments *)

Definition seg_at (sty : Z) (all : list pass) (k p : nat) (s : seg) : Prop :=
  s_passes s = Z.of_nat (p - start sty k) /\ s_real s = s_passes s /\ s_max s = Z.of_nat (cap sty k) /\
  s_len s = lsum (firstn (p - start sty k) (skipn (start sty k) all)).

(** Segments announced by a header: [n] passes from pass [p], inside segment
    [k]. *)
Fixpoint pending (sty : Z) (all : list pass) (k p n : nat) (l : list seg) : Prop :=
  match l with
  | [] => n = 0%nat
  | s :: l =>
      (1 <= n)%nat /\ seg_at sty all k p s /\
      let m := Nat.min (start sty (S k) - p) n in
      s_new s = Z.of_nat m /\ s_newlen s = lsum (firstn m (skipn p all)) /\
      pending sty all (S k) (p + m) (n - m) l
  end.

Lemma nth_set_seg : forall k s segs, (k < List.length segs)%nat -> nth k (set_seg k s segs) seg0 = s.
Proof.
  intros. unfold set_seg. rewrite app_nth2; rewrite firstn_length; [| lia].
  replace (k - Nat.min k (List.length segs))%nat with 0%nat by lia. reflexivity.
Qed.

Definition seg_fields (lenbits : Z) (l : list (Z * Z)) : list (Z * Z) :=
  map (fun s : Z * Z => (snd s, u32 (lenbits + floorlog2 (i32 (fst s))))) l.

Lemma dec_segs_src : forall n fuel sty all k p segs lenbits bytes r tail,
  Z.land sty 64 = 0 -> flags_ok sty all -> lens_ok all ->
  (start sty k <= p < start sty (S k))%nat -> (1 <= n <= 164)%nat -> (p + n <= List.length all)%nat -> (n < fuel)%nat ->
  List.length segs = S k -> seg_at sty all k p (nth k segs seg0) ->
  3 <= lenbits <= 25 ->
  Forall (fun s => snd s < 2 ^ (lenbits + floorlog2 (fst s)) /\ 0 <= floorlog2 (fst s) <= 7)
    (segments (firstn n (skipn p all)) 0 0) ->
  Src bytes r (field_bits (seg_fields lenbits (segments (firstn n (skipn p all)) 0 0)) ++ tail) ->
  exists ss r', dec_segs fuel sty segs k lenbits (Z.of_nat n) r = Some (firstn k segs ++ ss, r') /\
    Src bytes r' tail /\ pending sty all k p n ss.
Proof.
  induction n as [n IH] using lt_wf_ind; intros fuel sty all k p segs lenbits bytes r tail Hht Hf Hl Hk Hn Hlen Hfuel Hseg Hat Hlb Hw Hsrc.
  destruct fuel as [| fuel]; [lia |]. cbn [dec_segs]. rewrite Hht. cbn [Z.eqb negb].
  rewrite (segments_from sty all k p n Hf Hl Hk ltac:(lia) Hlen) in Hw, Hsrc. cbv zeta in Hw, Hsrc.
  set (m := Nat.min (start sty (S k) - p) n) in *.
  pose proof Hat as (A1 & A2 & A3 & A4).
  assert (Hcap : (cap sty k <= 109)%nat) by apply cap_bound.
  assert (Em : u32 (Z.min (i32 (u32 (s_max (nth k segs seg0) - s_passes (nth k segs seg0)))) (Z.of_nat n)) = Z.of_nat m).
  { rewrite A1, A3. rewrite (u32_id (_ - _)) by (unfold cap in *; lia). rewrite (i32_id (_ - _)) by (unfold in_i32, cap in *; lia).
    rewrite u32_id by (unfold cap in *; lia). unfold cap, m. lia. }
  rewrite Em. assert (Hm : (1 <= m <= n)%nat) by lia.
  cbn [seg_fields map fst snd] in Hsrc. fold (seg_fields lenbits) in Hsrc. inversion Hw as [| ? ? [W1 W2] Hw']; subst.
  cbn [fst snd] in W1, W2. rewrite (i32_id (Z.of_nat m)) in Hsrc by (unfold in_i32; lia).
  rewrite (u32_id (lenbits + _)) in * by lia.
  replace (32 <? lenbits + floorlog2 (Z.of_nat m)) with false by (symmetry; apply Z.ltb_ge; lia).
  rewrite field_bits_cons, <- app_assoc in Hsrc.
  destruct (bio_read_src _ _ _ (lenbits + floorlog2 (Z.of_nat m)) _ Hsrc) as (r1 & R1 & R2);
    [rewrite bits_of_length; lia | lia |].
  rewrite R1. set (v := lsum (firstn m (skipn p all))) in *.
  assert (Hv : 0 <= v < 2 ^ 32) by (destruct (lens_firstn m _ (lens_skipn p _ Hl)) as [X Y]; pose proof (lsum_nonneg _ X); unfold v; lia).
  assert (Ev : number (bits_of (Z.to_nat (lenbits + floorlog2 (Z.of_nat m))) v) = v).
  { rewrite number_bits. rewrite Z2Nat.id by lia. apply Z.mod_small. lia. }
  rewrite Ev. set (s' := mkSeg _ _ _ _ (Z.of_nat m) v).
  assert (At' : seg_at sty all k p s') by (unfold s', seg_at; cbn [s_passes s_real s_max s_len]; auto).
  assert (Eset : set_seg k s' segs = firstn k segs ++ [s']).
  { unfold set_seg. rewrite skipn_all2 by lia. reflexivity. }
  rewrite (i32_id (Z.of_nat m)) by (unfold in_i32; lia). rewrite (i32_id (_ - _)) by (unfold in_i32; lia).
  destruct (Z.ltb_spec 0 (Z.of_nat n - Z.of_nat m)) as [L | L].
  - assert (Hpm : (p + m = start sty (S k))%nat) by lia.
    rewrite (init_seg_max sty (S k) false).
    2: { split; [discriminate | intros X; discriminate X]. }
    2: { intros _. replace (S k - 1)%nat with k by lia. rewrite nth_set_seg by lia. exact A3. }
    rewrite Eset. set (fresh := mkSeg 0 0 0 (Z.of_nat (cap sty (S k))) 0 0).
    assert (Elen : List.length (firstn k segs ++ [s']) = S k) by (rewrite app_length, firstn_length; cbn; lia).
    rewrite (firstn_all2 (firstn k segs ++ [s'])) by lia.
    replace (Z.of_nat n - Z.of_nat m) with (Z.of_nat (n - m)) by lia.
    destruct (IH (n - m)%nat ltac:(lia) fuel sty all (S k) (p + m)%nat ((firstn k segs ++ [s']) ++ [fresh]) lenbits bytes r1 tail)
      as (ss & r' & E & S1 & S2); try assumption; try lia.
    + rewrite Hpm. pose proof (start_step sty (S k)). lia.
    + rewrite app_length, Elen. cbn. lia.
    + rewrite app_nth2 by lia. rewrite Elen, Nat.sub_diag. cbn [nth].
      unfold seg_at, fresh. cbn [s_passes s_real s_max s_len]. rewrite Hpm, Nat.sub_diag. cbn. auto.
    + exists (s' :: ss), r'. rewrite E. split; [| split; [exact S1 |]].
      * f_equal. f_equal. rewrite firstn_app, Elen, Nat.sub_diag, firstn_O, app_nil_r, (firstn_all2 (firstn k segs ++ [s'])) by lia.
        rewrite <- app_assoc. reflexivity.
      * cbn [pending]. fold m. split; [lia |]. split; [exact At' |]. auto.
  - assert (m = n) by lia. exists [s'], r1. rewrite Eset. split; [reflexivity |]. split.
    + replace (n - m)%nat with 0%nat in R2 by lia. cbn [firstn segments seg_fields map field_bits flat_map app] in R2. exact R2.
    + cbn [pending]. fold m. split; [lia |]. split; [exact At' |]. cbn [s_new s_newlen s']. split; [reflexivity |].
      split; [reflexivity | lia].
Qed.

(** Reading the bodies of announced segments. *)
Lemma read_segs_ok : forall ss n fuel sty all k p c pre body rest,
  lens_ok all -> (start sty k <= p < start sty (S k))%nat -> (1 <= n <= 164)%nat -> (n < fuel)%nat ->
  (p + n <= List.length all)%nat ->
  d_segs c = pre ++ ss -> List.length pre = k -> pending sty all k p n ss ->
  d_new c = Z.of_nat n -> Z.of_nat (List.length body) = lsum (firstn n (skipn p all)) ->
  exists c' q ss' cs, read_segs fuel k c (body ++ rest) = Some (c', rest) /\
    d_segs c' = pre ++ ss' /\ List.length (pre ++ ss') = q /\ d_numsegs c' = q /\
    (start sty (q - 1) < p + n <= start sty q)%nat /\ (k < q)%nat /\
    (forall j, (k <= j < q)%nat -> seg_at sty all j (Nat.min (p + n) (start sty (S j))) (nth (j - k) ss' seg0)) /\
    d_chunks c' = d_chunks c ++ cs /\ concat cs = body /\
    d_numbps c' = d_numbps c /\ d_mb c' = d_mb c /\ d_lenbits c' = d_lenbits c.
Proof.
  induction ss as [| s ss IH]; intros n fuel sty all k p c pre body rest Hl Hk Hn Hfuel Hall Hsegs Hpre Hpend Hnew Hbody.
  { cbn in Hpend. lia. }
  cbn [pending] in Hpend. destruct Hpend as (_ & Hat & Hp). set (m := Nat.min (start sty (S k) - p) n) in *.
  cbv zeta in Hp. destruct Hp as (Hnw & Hnl & Hpend). destruct fuel as [| fuel]; [lia |]. cbn [read_segs].
  assert (Es : nth k (d_segs c) seg0 = s).
  { rewrite Hsegs, app_nth2 by lia. rewrite Hpre, Nat.sub_diag. reflexivity. }
  rewrite Es. set (v := lsum (firstn m (skipn p all))) in *. rewrite Hnl.
  assert (Hm : (1 <= m <= n)%nat) by lia.
  assert (Hv0 : 0 <= v).
  { destruct (lens_firstn m _ (lens_skipn p _ Hl)) as [X Y]. apply lsum_nonneg in X. exact X. }
  assert (Hsum : lsum (firstn n (skipn p all)) = v + lsum (firstn (n - m) (skipn (p + m) all))).
  { replace n with (m + (n - m))%nat at 1 by lia. rewrite firstn_add, lsum_app, skipn_skipn. reflexivity. }
  assert (Hr0 : 0 <= lsum (firstn (n - m) (skipn (p + m) all))).
  { destruct (lens_firstn (n - m) _ (lens_skipn (p + m) _ Hl)) as [X Y]. apply lsum_nonneg in X. exact X. }
  replace (Z.of_nat (List.length (body ++ rest)) <? v) with false
    by (symmetry; apply Z.ltb_ge; rewrite app_length; lia).
  pose proof Hat as (A1 & A2 & A3 & A4). rewrite Hnw, A1.
  pose proof (cap_bound sty k) as Hcap. unfold cap in Hcap.
  rewrite (u32_id (Z.of_nat (p - start sty k) + Z.of_nat m)) by lia.
  assert (Elen2 : s_len s + v = lsum (firstn (p + m - start sty k) (skipn (start sty k) all))).
  { rewrite A4. replace (p + m - start sty k)%nat with ((p - start sty k) + m)%nat by lia.
    rewrite firstn_add, lsum_app, skipn_skipn. replace (start sty k + (p - start sty k))%nat with p by lia. reflexivity. }
  rewrite (u32_id (s_len s + v)).
  2: { rewrite Elen2. destruct (lens_firstn (p + m - start sty k) _ (lens_skipn (start sty k) _ Hl)) as [X Y].
       pose proof (lsum_nonneg _ X). lia. }
  rewrite Hnew. rewrite (u32_id (Z.of_nat n - Z.of_nat m)) by lia.
  set (s' := mkSeg _ _ _ _ _ _).
  assert (At' : seg_at sty all k (p + m) s').
  { unfold seg_at, s'. cbn [s_passes s_real s_max s_len]. split; [lia |]. split; [lia |]. split; [exact A3 | exact Elen2]. }
  assert (Eset : set_seg k s' (d_segs c) = pre ++ s' :: ss).
  { unfold set_seg. rewrite Hsegs. rewrite firstn_app, Hpre, Nat.sub_diag, firstn_O, app_nil_r, firstn_all2 by lia.
    f_equal. f_equal. rewrite skipn_app, skipn_all2 by lia. replace (S k - List.length pre)%nat with 1%nat by lia. reflexivity. }
  rewrite Eset. cbn [d_new]. set (b1 := firstn (Z.to_nat v) body).
  assert (Eb1 : firstn (Z.to_nat v) (body ++ rest) = b1).
  { unfold b1. rewrite firstn_app. replace (Z.to_nat v - List.length body)%nat with 0%nat by lia. rewrite firstn_O, app_nil_r. reflexivity. }
  assert (Eb2 : skipn (Z.to_nat v) (body ++ rest) = skipn (Z.to_nat v) body ++ rest).
  { rewrite skipn_app. replace (Z.to_nat v - List.length body)%nat with 0%nat by lia. reflexivity. }
  rewrite Eb1, Eb2. set (c1 := mkD _ _ _ _ _ _ _ _).
  destruct (Z.ltb_spec 0 (Z.of_nat n - Z.of_nat m)) as [L | L].
  - assert (Hpm : (p + m = start sty (S k))%nat) by lia.
    destruct (IH (n - m)%nat fuel sty all (S k) (p + m)%nat c1 (pre ++ [s']) (skipn (Z.to_nat v) body) rest)
      as (c' & q & ss' & cs & R1 & R2 & R3 & R4 & R5 & R6 & R7 & R8 & R9 & R10 & R11 & R12); try assumption; try lia.
    + rewrite Hpm. pose proof (start_step sty (S k)). lia.
    + unfold c1. cbn [d_segs]. rewrite <- app_assoc. reflexivity.
    + rewrite app_length. cbn. lia.
    + unfold c1. cbn [d_new]. lia.
    + rewrite skipn_length. lia.
    + exists c', q, (s' :: ss'), (b1 :: cs). replace (p + m + (n - m))%nat with (p + n)%nat in * by lia.
      split; [exact R1 |]. split; [rewrite R2, <- app_assoc; reflexivity |].
      split; [rewrite <- R3, <- app_assoc; reflexivity |]. split; [exact R4 |]. split; [exact R5 |]. split; [lia |].
      split.
      * intros j Hj. destruct (Nat.eq_dec j k) as [-> | Hne].
        -- rewrite Nat.sub_diag. cbn [nth]. replace (Nat.min (p + n) (start sty (S k))) with (p + m)%nat by lia. exact At'.
        -- replace (j - k)%nat with (S (j - S k)) by lia. cbn [nth]. apply R7. lia.
      * split; [rewrite R8; unfold c1; cbn [d_chunks]; rewrite <- app_assoc; reflexivity |].
        split; [cbn [concat]; rewrite R9; apply firstn_skipn |]. auto.
  - assert (m = n) by lia. assert (ss = []) by (destruct ss; [reflexivity | cbn [pending] in Hpend; lia]). subst ss.
    replace (n - m)%nat with 0%nat in Hsum by lia. cbn [firstn lsum fold_right] in Hsum.
    assert (Eb : b1 = body) by (unfold b1; apply firstn_all2; lia).
    rewrite (skipn_all2 body) by lia. exists c1, (S k), [s'], [b1].
    split; [reflexivity |]. split; [reflexivity |]. split; [rewrite app_length; cbn; lia |]. split; [reflexivity |].
    split; [replace (S k - 1)%nat with k by lia; lia |]. split; [lia |]. split.
    + intros j Hj. assert (j = k) by lia. subst j. rewrite Nat.sub_diag. cbn [nth].
      replace (Nat.min (p + n) (start sty (S k))) with (p + m)%nat by lia. exact At'.
    + split; [reflexivity |]. split; [cbn [concat]; rewrite app_nil_r; exact Eb |]. auto.
Qed.
