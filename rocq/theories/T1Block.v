(** Whole code-blocks: the coding loop and the decoder's segments against the
    passes of T1Spec. *)

From Coq Require Import ZArith List Lia Bool.
From Verif Require Import Ints I32 Mem MqModel MqProofs MqSync MqEnd MqProps RawProofs RawProps MathModel MathProps T2CodesModel T2PacketModel T1Luts T1Model T1Spec T1Bits T1Rel T1Enc T1Stage T1Dec T1Code.
From Verif Require Import Ints.
Import ListNotations.
Local Open Scope Z_scope.

(** ** The coefficients of a block *)

(** What is coded of a coefficient with six fractional bits. *)
Definition coded_magnitude (c : Z) : Z := Z.shiftr (Z.min (Z.abs c) (2 ^ 31 - 1)) 6.
Definition block_of (w h orient sty : Z) (x : Z -> Z -> Z) : block :=
  mkBlock w h orient (styled sty CBLKSTY_VSC) (fun i j => coded_magnitude (x i j)) (fun i j => x i j <? 0).

Definition smr (w h : Z) (x : Z -> Z -> Z) : mem := fun i => to_smr (stripe_order w h x i).

Lemma shiftl_one : forall n, 0 <= n -> Z.shiftl 1 n = 2 ^ n. Proof. intros. rewrite Z.shiftl_mul_pow2 by lia. lia. Qed.

Lemma smr_parts : forall c, in_i32 c -> smr_abs (to_smr c) = Z.min (Z.abs c) (2 ^ 31 - 1) /\ smr_sign (to_smr c) = if c <? 0 then 1 else 0.
Proof.
  intros c Hc. unfold in_i32 in Hc. unfold to_smr. set (x := if c =? - 2 ^ 31 then - 2 ^ 31 + 1 else c).
  assert (Hx : - 2 ^ 31 < x < 2 ^ 31) by (unfold x; destruct (Z.eqb_spec c (- 2 ^ 31)); lia).
  assert (Sx : (x <? 0) = (c <? 0)) by (unfold x; destruct (Z.eqb_spec c (- 2 ^ 31)) as [-> |]; reflexivity).
  assert (Ax : Z.abs x = Z.min (Z.abs c) (2 ^ 31 - 1)) by (unfold x; destruct (Z.eqb_spec c (- 2 ^ 31)); lia).
  rewrite <- Sx, <- Ax. cbv zeta. destruct (Z.ltb_spec x 0) as [N | N].
  - assert (D : Z.lor (- x) 0x80000000 = - x + 2 ^ 31).
    { change 0x80000000 with (2 ^ 31). rewrite <- Z.lxor_lor, Z.add_nocarry_lxor; [reflexivity | |];
      (apply Z.bits_inj'; intros n Hn; rewrite Z.land_spec, Z.bits_0, Z.pow2_bits_eqb by lia;
       destruct (Z.eqb_spec 31 n) as [<- |]; [rewrite andb_true_r | apply andb_false_r]; apply Z.testbit_false; [lia |];
       rewrite Z.div_small by lia; reflexivity). }
    rewrite D. split.
    + unfold smr_abs. change 0x7FFFFFFF with (Z.ones 31). rewrite Z.land_ones by lia. replace (- x + 2 ^ 31) with (- x + 1 * 2 ^ 31) by lia.
      rewrite Z.mod_add, Z.mod_small by lia. lia.
    + unfold smr_sign. rewrite Z.shiftr_div_pow2 by lia. replace (- x + 2 ^ 31) with (- x + 1 * 2 ^ 31) by lia. rewrite Z.div_add, Z.div_small by lia. reflexivity.
  - split.
    + unfold smr_abs. change 0x7FFFFFFF with (Z.ones 31). rewrite Z.land_ones, Z.mod_small by lia. lia.
    + unfold smr_sign. rewrite Z.shiftr_div_pow2, Z.div_small by lia. reflexivity.
Qed.

Lemma stored_smr : forall w h orient sty x q i j (data : mem), in_i32 (x i j) -> data q = to_smr (x i j) -> stored (block_of w h orient sty x) data q i j.
Proof.
  intros w h orient sty x q i j data Hx E. destruct (smr_parts _ Hx) as [A S]. unfold stored. rewrite E, S. split; [| reflexivity].
  intros p Hp. unfold plane_bit, bit_at, enc_one. cbn [block_of magnitude]. unfold coded_magnitude. rewrite A, shiftl_one by lia.
  rewrite Z.shiftr_spec by lia. set (m := Z.min (Z.abs (x i j)) (2 ^ 31 - 1)).
  assert (L : Z.land m (2 ^ (p + 6)) = if Z.testbit m (p + 6) then 2 ^ (p + 6) else 0).
  { apply Z.bits_inj'. intros n Hn. rewrite Z.land_spec, Z.pow2_bits_eqb by lia. destruct (Z.eqb_spec (p + 6) n) as [<- | Ne].
    - rewrite andb_true_r. destruct (Z.testbit m (p + 6)); [rewrite Z.pow2_bits_true by lia | rewrite Z.bits_0]; reflexivity.
    - rewrite andb_false_r. destruct (Z.testbit m (p + 6)); [rewrite Z.pow2_bits_false by lia | rewrite Z.bits_0]; reflexivity. }
  rewrite L. assert (0 < 2 ^ (p + 6)) by (apply Z.pow_pos_nonneg; lia). destruct (Z.testbit m (p + 6)); [| reflexivity].
  destruct (Z.eqb_spec (2 ^ (p + 6)) 0); [lia | reflexivity].
Qed.

Lemma stripe_full : forall w h x k i ci, 0 <= k < h / 4 -> 0 <= i < w -> 0 <= ci < 4 -> stripe_order w h x (full_data w k i ci) = x i (4 * k + ci).
Proof.
  intros w h x k i ci Hk Hi Hc. unfold stripe_order, full_data.
  destruct (Z.ltb_spec (4 * (k * w + i) + ci) (4 * (h / 4) * w)) as [L | L]; [| exfalso; nia].
  assert (E1 : (4 * (k * w + i) + ci) / 4 = k * w + i) by (symmetry; apply (Z.div_unique _ 4 _ ci); lia).
  assert (E2 : (4 * (k * w + i) + ci) mod 4 = ci) by (symmetry; apply (Z.mod_unique _ 4 (k * w + i)); lia).
  rewrite E1, E2. f_equal.
  - symmetry. apply (Z.mod_unique _ w k); lia.
  - f_equal. f_equal. symmetry. apply (Z.div_unique _ w k i); lia.
Qed.
Lemma stripe_last : forall w h x i ci, 0 <= h -> 0 <= i < w -> 0 <= ci < h mod 4 ->
  stripe_order w h x (last_data w h (h / 4) i ci) = x i (4 * (h / 4) + ci).
Proof.
  intros w h x i ci Hh Hi Hc. unfold stripe_order, last_data.
  assert (0 <= h mod 4 * i) by (apply Z.mul_nonneg_nonneg; lia).
  destruct (Z.ltb_spec (4 * (h / 4) * w + h mod 4 * i + ci) (4 * (h / 4) * w)) as [L | L]; [lia |].
  replace (4 * (h / 4) * w + h mod 4 * i + ci - 4 * (h / 4) * w) with (h mod 4 * i + ci) by lia. f_equal.
  - symmetry. apply (Z.div_unique _ (h mod 4) i ci); lia.
  - f_equal. symmetry. apply (Z.mod_unique _ (h mod 4) i ci); lia.
Qed.

(** Every coefficient has its place in stripe order. *)
Lemma stripe_place : forall w h i j, 0 <= i < w -> 0 <= j < h -> exists n, 0 <= n < w * h /\ forall x, stripe_order w h x n = x i j.
Proof.
  intros w h i j Hi Hj. pose proof (Z.div_mod h 4 ltac:(lia)) as Dh. pose proof (Z.mod_pos_bound h 4 ltac:(lia)) as Mh.
  pose proof (Z.div_mod j 4 ltac:(lia)) as Dj. pose proof (Z.mod_pos_bound j 4 ltac:(lia)) as Mj. pose proof (Z.div_pos j 4 ltac:(lia) ltac:(lia)) as Pj.
  destruct (Z_lt_ge_dec (j / 4) (h / 4)) as [L | G].
  - exists (full_data w (j / 4) i (j mod 4)). split; [unfold full_data; nia |]. intros x. rewrite stripe_full by lia. f_equal. lia.
  - assert (E : j / 4 = h / 4) by lia. exists (last_data w h (h / 4) i (j mod 4)). split; [unfold last_data; nia |].
    intros x. rewrite stripe_last by lia. f_equal. lia.
Qed.

Lemma held_smr : forall w h orient sty x, 0 <= h -> (forall i j, 0 <= i < w -> 0 <= j < h -> in_i32 (x i j)) ->
  held (block_of w h orient sty x) (smr w h x).
Proof.
  intros w h orient sty x Hh Hx. pose proof (Z.div_mod h 4 ltac:(lia)) as Dh. pose proof (Z.mod_pos_bound h 4 ltac:(lia)) as Mh. pose proof (Z.div_pos h 4 Hh ltac:(lia)).
  split; cbn [block_of width height].
  - intros k i ci Hk Hi Hc. apply stored_smr; [apply Hx; lia |]. unfold smr. rewrite stripe_full by assumption. reflexivity.
  - intros i ci Hi Hc. apply stored_smr; [apply Hx; lia |]. unfold smr. rewrite stripe_last by assumption. reflexivity.
Qed.

(** ** The number of bit-planes *)

Lemma fold_max : forall (f : Z -> Z) l a, a <= fold_left (fun m i => Z.max m (f i)) l a /\ (forall i, In i l -> f i <= fold_left (fun m i => Z.max m (f i)) l a) /\
  (fold_left (fun m i => Z.max m (f i)) l a = a \/ exists i, In i l /\ fold_left (fun m i => Z.max m (f i)) l a = f i).
Proof.
  intros f l. induction l as [| k l IH]; intros a; cbn [fold_left].
  - split; [lia |]. split; [intros i [] | left; reflexivity].
  - destruct (IH (Z.max a (f k))) as (H1 & H2 & H3). split; [lia |]. split.
    + intros i [<- | I]; [lia | apply H2, I].
    + destruct H3 as [E | (i & I & E)]; [| right; exists i; split; [right; exact I | exact E]].
      destruct (Z.max_spec a (f k)) as [[_ M] | [_ M]]; [right; exists k; split; [left; reflexivity | lia] | left; lia].
Qed.

Definition planes (w h : Z) (x : Z -> Z -> Z) : Z := enc_numbps (max_abs (w * h) (stripe_order w h x)).

Section Data.
  Variables (w h : Z) (x : Z -> Z -> Z).
  Hypotheses (Hw : 1 <= w) (Hh : 1 <= h) (Hx : forall i j, 0 <= i < w -> 0 <= j < h -> in_i32 (x i j)).
  Local Notation mx := (max_abs (w * h) (stripe_order w h x)).

  Lemma stripe_range : forall n, 0 <= n < w * h -> exists i j, 0 <= i < w /\ 0 <= j < h /\ stripe_order w h x n = x i j.
  Proof.
    intros n Hn. unfold stripe_order. pose proof (Z.div_mod h 4 ltac:(lia)) as Dh. pose proof (Z.mod_pos_bound h 4 ltac:(lia)) as Mh.
    destruct (Z.ltb_spec n (4 * (h / 4) * w)) as [L | L].
    - exists ((n / 4) mod w), (4 * (n / 4 / w) + n mod 4). pose proof (Z.mod_pos_bound (n / 4) w ltac:(lia)). pose proof (Z.mod_pos_bound n 4 ltac:(lia)).
      assert (0 <= n / 4) by (apply Z.div_pos; lia). assert (0 <= n / 4 / w) by (apply Z.div_pos; lia).
      assert (n / 4 / w < h / 4) by (apply Z.div_lt_upper_bound; [lia |]; apply Z.div_lt_upper_bound; lia).
      split; [lia |]. split; [lia | reflexivity].
    - assert (Hm : 0 < h mod 4) by nia. set (k := n - 4 * (h / 4) * w) in *. assert (Hk : 0 <= k < h mod 4 * w) by (unfold k; nia).
      exists (k / (h mod 4)), (4 * (h / 4) + k mod (h mod 4)). pose proof (Z.mod_pos_bound k (h mod 4) ltac:(lia)).
      assert (0 <= k / (h mod 4) < w) by (split; [apply Z.div_pos; lia | apply Z.div_lt_upper_bound; lia]).
      assert (0 <= h / 4) by (apply Z.div_pos; lia). split; [lia |]. split; [lia | reflexivity].
  Qed.

  Lemma mx_range : 0 <= mx < 2 ^ 31.
  Proof.
    unfold max_abs. pose proof (fold_max (fun i => smr_abs (to_smr (stripe_order w h x i))) (range 0 (w * h)) 0) as (F1 & _ & F3). cbv beta in F1, F3.
    split; [exact F1 |]. destruct F3 as [-> | (n & I & ->)]; [lia |].
    rewrite range0, in_upto in I. destruct (stripe_range n I) as (i & j & Hi & Hj & ->). rewrite (proj1 (smr_parts _ (Hx i j Hi Hj))). lia.
  Qed.
  Lemma mx_bound : forall i j, 0 <= i < w -> 0 <= j < h -> Z.min (Z.abs (x i j)) (2 ^ 31 - 1) <= mx.
  Proof.
    intros i j Hi Hj. destruct (stripe_place w h i j Hi Hj) as (n & Hn & E). rewrite <- (proj1 (smr_parts _ (Hx i j Hi Hj))), <- E.
    unfold max_abs. pose proof (fold_max (fun i => smr_abs (to_smr (stripe_order w h x i))) (range 0 (w * h)) 0) as (_ & F2 & _). apply (F2 n).
    rewrite range0. apply in_upto, Hn.
  Qed.
  Lemma mx_hit : mx <> 0 -> exists i j, 0 <= i < w /\ 0 <= j < h /\ Z.min (Z.abs (x i j)) (2 ^ 31 - 1) = mx.
  Proof.
    intros Hm. unfold max_abs in *. pose proof (fold_max (fun i => smr_abs (to_smr (stripe_order w h x i))) (range 0 (w * h)) 0) as (_ & _ & F3). cbv beta in F3.
    destruct F3 as [E | (n & I & E)]; [contradiction |].
    rewrite range0, in_upto in I. destruct (stripe_range n I) as (i & j & Hi & Hj & En). exists i, j. split; [exact Hi |]. split; [exact Hj |].
    rewrite E, En. symmetry. apply (proj1 (smr_parts _ (Hx i j Hi Hj))).
  Qed.

  (** Either there is something to code, in at most 25 planes, or nothing at all. *)
  Lemma planes_cases : (1 <= planes w h x <= 25 /\ (forall i j, 0 <= i < w -> 0 <= j < h -> 0 <= coded_magnitude (x i j) < 2 ^ planes w h x) /\
      exists i j, 0 <= i < w /\ 0 <= j < h /\ 2 ^ (planes w h x - 1) <= coded_magnitude (x i j)) \/
    ((planes w h x = 0 \/ 2 ^ 32 - 6 < planes w h x < 2 ^ 32) /\ forall i j, 0 <= i < w -> 0 <= j < h -> coded_magnitude (x i j) = 0).
  Proof.
    pose proof mx_range as R. pose proof mx_bound as Bd. pose proof mx_hit as Hit. unfold planes, enc_numbps. set (m := mx) in *. clearbody m.
    destruct (Z.eqb_spec m 0) as [E | E]; cbn [negb].
    - right. split; [left; reflexivity |]. intros i j Hi Hj. specialize (Bd i j Hi Hj). unfold coded_magnitude. replace (Z.min (Z.abs (x i j)) (2 ^ 31 - 1)) with 0 by lia. reflexivity.
    - pose proof (c29_floorlog2 m ltac:(lia)) as L. set (e := floorlog2 m) in *. clearbody e.
      assert (He : 0 <= e) by (destruct (Z_lt_ge_dec e 0); [exfalso; assert (2 ^ (e + 1) <= 2 ^ 0) by (apply Z.pow_le_mono_r; lia); change (2 ^ 0) with 1 in *; lia | lia]).
      assert (He2 : e <= 30) by (destruct (Z_lt_ge_dec 30 e); [exfalso; assert (2 ^ 31 <= 2 ^ e) by (apply Z.pow_le_mono_r; lia); lia | lia]).
      destruct (Z_lt_ge_dec e 6) as [Ls | G].
      + right. split.
        * destruct (Z.eq_dec e 5) as [-> |]; [left; reflexivity |]. right. unfold u32. replace (e + 1 - 6) with ((e + 1 - 6 + 2 ^ 32) + (-1) * 2 ^ 32) by lia. rewrite Z.mod_add, Z.mod_small by lia. lia.
        * intros i j Hi Hj. specialize (Bd i j Hi Hj). assert (2 ^ (e + 1) <= 2 ^ 6) by (apply Z.pow_le_mono_r; lia). unfold coded_magnitude.
          rewrite Z.shiftr_div_pow2 by lia. apply Z.div_small. lia.
      + left. assert (Eu : u32 (e + 1 - 6) = e - 5) by (unfold u32; rewrite Z.mod_small by lia; lia). rewrite Eu. split; [lia |]. split.
        * intros i j Hi Hj. specialize (Bd i j Hi Hj). unfold coded_magnitude. rewrite Z.shiftr_div_pow2 by lia. split; [apply Z.div_pos; lia |].
          apply Z.div_lt_upper_bound; [lia |]. rewrite <- Z.pow_add_r by lia. replace (6 + (e - 5)) with (e + 1) by lia. lia.
        * destruct (Hit E) as (i & j & Hi & Hj & Em). exists i, j. split; [exact Hi |]. split; [exact Hj |]. unfold coded_magnitude. rewrite Em.
          rewrite Z.shiftr_div_pow2 by lia. apply Z.div_le_lower_bound; [lia |]. rewrite <- Z.pow_add_r by lia. replace (6 + (e - 5 - 1)) with e by lia. lia.
  Qed.
End Data.

(** ** The flags at the start *)

Lemma guard_bits_range : forall h, 0 <= guard_bits h < 2 ^ 32.
Proof.
  intros h. unfold guard_bits. destruct (h mod 4 =? 1); [vm_compute; intuition discriminate |]. destruct (h mod 4 =? 2); [vm_compute; intuition discriminate |].
  destruct (h mod 4 =? 3); vm_compute; intuition discriminate.
Qed.
Lemma guard_bits_only : forall B k b, k = height B / 4 -> 0 <= b -> guard B k b = false -> Z.testbit (guard_bits (height B)) b = false.
Proof.
  intros B k b Ek Hb Hg. pose proof (Z.div_mod (height B) 4 ltac:(lia)) as D. pose proof (Z.mod_pos_bound (height B) 4 ltac:(lia)) as M.
  assert (N : forall c, height B mod 4 <= c <= 3 -> 21 + 3 * c <> b).
  { intros c Hc <-. unfold guard in Hg. replace (21 + 3 * c - 21) with (c * 3) in Hg by lia. rewrite Z.mod_mul, Z.div_mul in Hg by lia.
    rewrite (proj2 (Z.leb_le _ _)), (proj2 (Z.leb_le _ _)) in Hg by lia. discriminate. }
  unfold guard_bits. destruct (Z.eqb_spec (height B mod 4) 1) as [E | _]; [| destruct (Z.eqb_spec (height B mod 4) 2) as [E | _]; [| destruct (Z.eqb_spec (height B mod 4) 3) as [E | _]]].
  - pose proof (N 1 ltac:(lia)). pose proof (N 2 ltac:(lia)). pose proof (N 3 ltac:(lia)). rewrite !Z.lor_spec, !testbit_bit by lia.
    repeat match goal with |- context [?u =? b] => destruct (Z.eqb_spec u b); [lia |] end. reflexivity.
  - pose proof (N 2 ltac:(lia)). pose proof (N 3 ltac:(lia)). rewrite !Z.lor_spec, !testbit_bit by lia.
    repeat match goal with |- context [?u =? b] => destruct (Z.eqb_spec u b); [lia |] end. reflexivity.
  - pose proof (N 3 ltac:(lia)). rewrite !testbit_bit by lia. repeat match goal with |- context [?u =? b] => destruct (Z.eqb_spec u b); [lia |] end. reflexivity.
  - apply Z.bits_0.
Qed.

Lemma init_ok : forall B n, good B -> Ok B (init_flags (width B) (height B)) (initial n) (visited (initial n)).
Proof.
  intros B n (G1 & G2 & G3).
  assert (W : forall i k, -1 <= i <= width B -> 0 <= k < stripes B ->
    word B (init_flags (width B) (height B)) i k = 0 \/ (k = height B / 4 /\ word B (init_flags (width B) (height B)) i k = guard_bits (height B))).
  { intros i k Hi Hk. unfold word, init_flags, flag_at. unfold stripes in Hk.
    assert (E : ((i + 1) + (k + 1) * (width B + 2)) / (width B + 2) = k + 1) by (symmetry; apply (Z.div_unique _ (width B + 2) (k + 1) (i + 1)); lia).
    rewrite E. destruct (Z.ltb_spec (i + 1 + (k + 1) * (width B + 2)) 0); [nia |]. destruct (Z.leb_spec ((height B + 3) / 4 + 2) (k + 1)); [lia |]. cbn [orb].
    destruct (Z.eqb_spec (k + 1) 0); [lia |]. destruct (Z.eqb_spec (k + 1) ((height B + 3) / 4 + 1)); [lia |]. cbn [orb].
    destruct (Z.eqb_spec (height B mod 4) 0) as [E0 | E0]; cbn [negb andb]; [left; reflexivity |].
    destruct (Z.eqb_spec (k + 1) ((height B + 3) / 4)) as [E1 | E1]; [right | left; reflexivity]. split; [| reflexivity].
    rewrite stripes_eq in E1 by lia. pose proof (Z.mod_pos_bound (height B) 4 ltac:(lia)). rewrite (proj2 (Z.ltb_lt _ _)) in E1 by lia. lia. }
  assert (Eb : forall i k b, ebit B (initial n) (visited (initial n)) i k b = false).
  { intros i k b. unfold ebit, near_bit, initial. cbn [significant refined visited]. rewrite !andb_false_r. cbn [andb].
    destruct (b <? 18); [reflexivity |]. destruct (b =? 18); [reflexivity |]. destruct (_ =? 0); [reflexivity |]. destruct (_ =? 1); reflexivity. }
  split.
  - constructor.
    + intros i k Hi Hk. destruct (W i k Hi Hk) as [-> | [_ ->]]; [lia | apply guard_bits_range].
    + intros i k b Hi Hk Hb Hg. rewrite Eb. destruct (W i k Hi Hk) as [-> | [E ->]]; [apply Z.bits_0 | apply (guard_bits_only B k); [exact E | lia | exact Hg]].
  - intros i j H. discriminate.
Qed.

(** ** The passes of a block *)

Definition marks (sty t : Z) : list sym := if (t =? 2) && styled sty CBLKSTY_SEGSYM then [(18, 1); (18, 0); (18, 1); (18, 0)] else [].
Definition pass_out (raw : bool) (B : block) (sty p t : Z) (s : state) : list sym := snd (coding_pass raw B p t s) ++ marks sty t.
Definition after_pass (p t : Z) : Z * Z := if t + 1 =? 3 then (p - 1, 0) else (p, t + 1).

Section Plan.
  Variables (B : block) (sty n : Z).
  Fixpoint pieces (k : nat) (p t : Z) (s : state) : list piece :=
    match k with
    | O => []
    | S k => if p <? 0 then [] else
        mkPiece (is_raw sty n p t) (enc_is_term sty n p t) (pass_out (is_raw sty n p t) B sty p t s)
        :: pieces k (fst (after_pass p t)) (snd (after_pass p t)) (fst (coding_pass (is_raw sty n p t) B p t s))
    end.
End Plan.

Lemma pieces_some : forall B sty n k p t s, 0 <= p -> exists P ps, pieces B sty n (S k) p t s = P :: ps.
Proof. intros. cbn [pieces]. destruct (Z.ltb_spec p 0); [lia |]. eexists. eexists. reflexivity. Qed.
Lemma loop_none : forall k start w h orient sty n p t prev data f s, p < 0 -> enc_loop k start w h orient sty n p t prev data f s = Some ([], s).
Proof. intros. destruct k; cbn [enc_loop]; (destruct (Z.ltb_spec p 0); [reflexivity | lia]). Qed.

Lemma segmark_marks : forall start s, segmark_enc start s = code_mq start [(18, 1); (18, 0); (18, 1); (18, 0)] s.
Proof. reflexivity. Qed.

Lemma raw_not_cleanup : forall sty n p, is_raw sty n p 2 = false.
Proof. intros. unfold is_raw. change (2 <? 2) with false. rewrite andb_false_r. reflexivity. Qed.

Lemma pass_sim : forall B data sty n p t, good B -> 0 <= p -> 0 <= t < 3 -> causal B = styled sty CBLKSTY_VSC -> held B data ->
  esim B (enc_pass (width B) (height B) (band B) sty n p t data) (coding_pass (is_raw sty n p t) B p t).
Proof.
  intros B data sty n p t G Hp Ht Hv Hd. unfold enc_pass, coding_pass. cbv zeta.
  destruct (Z.eqb_spec t 0) as [-> |]; [apply sigpass_sim; assumption |].
  destruct (Z.eqb_spec t 1) as [-> |]; [apply refpass_sim; assumption |].
  destruct (Z.eqb_spec t 2) as [-> |]; [apply clnpass_sim; assumption | lia].
Qed.

(** The coding loop hands the passes of T1Spec to the coder. *)
Theorem loop_run : forall B data sty n start, good B -> causal B = styled sty CBLKSTY_VSC -> held B data ->
  forall k p t prev f s c, 0 <= t < 3 -> -1 <= p -> 3 * p + 3 - t <= Z.of_nat k -> Ok B f s (visited s) ->
  let ps := pieces B sty n k p t s in
  let r := run start (styled sty CBLKSTY_PTERM) (styled sty CBLKSTY_RESET) prev ps c in
  enc_loop k start (width B) (height B) (band B) sty n p t prev data f c = Some (combine (fst r) (map ends_of ps), snd r) /\ length (fst r) = length ps.
Proof.
  intros B data sty n start G Hv Hd. induction k as [| k IH]; intros p t prev f s c Ht Hp Hk O.
  - assert (p < 0) by lia. cbn [enc_loop pieces]. destruct (Z.ltb_spec p 0); [| lia]. split; reflexivity.
  - cbn [enc_loop pieces]. destruct (Z.ltb_spec p 0) as [L | L]; [split; reflexivity |].
    destruct (pass_sim B data sty n p t G L Ht Hv Hd f s O) as [E1 O1]. unfold enc_turn. cbv zeta.
    destruct (enc_pass (width B) (height B) (band B) sty n p t data f) as [f1 o1]. cbn [fst snd] in E1, O1.
    cbn [run]. unfold turn. cbn [raw_of ends_of out_of]. set (raw := is_raw sty n p t) in *. set (term := enc_is_term sty n p t).
    set (c0 := if prev then (if raw then bypass_init_enc start c else restart_init_enc start c) else c).
    assert (Ec : (if (t =? 2) && styled sty CBLKSTY_SEGSYM then segmark_enc start (if raw then code_raw o1 c0 else code_mq start o1 c0) else (if raw then code_raw o1 c0 else code_mq start o1 c0))
                 = if raw then code_raw (pass_out raw B sty p t s) c0 else code_mq start (pass_out raw B sty p t s) c0).
    { unfold pass_out, marks. rewrite <- E1. destruct (Z.eqb_spec t 2) as [-> | _]; cbn [andb].
      - assert (Er : raw = false) by (apply raw_not_cleanup). rewrite Er. destruct (styled sty CBLKSTY_SEGSYM).
        + rewrite segmark_marks. unfold code_mq. rewrite fold_left_app. reflexivity.
        + rewrite app_nil_r. reflexivity.
      - rewrite app_nil_r. reflexivity. }
    rewrite Ec. clear Ec. unfold close_mq.
    set (c1 := if raw then code_raw (pass_out raw B sty p t s) c0 else code_mq start (pass_out raw B sty p t s) c0).
    set (c2 := if term then (if raw then bypass_flush_enc (styled sty CBLKSTY_PTERM) c1 else if styled sty CBLKSTY_PTERM then erterm_enc start c1 else flush start c1) else c1).
    fold (wipe (styled sty CBLKSTY_RESET) c2).
    assert (Ea : (if t + 1 =? 3 then (p - 1, 0) else (p, t + 1)) = after_pass p t) by reflexivity. rewrite Ea.
    assert (Hn : 0 <= snd (after_pass p t) < 3 /\ -1 <= fst (after_pass p t) /\ 3 * fst (after_pass p t) + 3 - snd (after_pass p t) <= Z.of_nat k).
    { unfold after_pass. destruct (Z.eqb_spec (t + 1) 3); cbn [fst snd]; lia. }
    destruct (after_pass p t) as [p' t']. cbn [fst snd] in Hn |- *. destruct Hn as (N1 & N2 & N3).
    destruct (IH p' t' term f1 _ (wipe (styled sty CBLKSTY_RESET) c2) N1 N2 N3 O1) as [I1 I2]. rewrite I1.
    destruct (run start (styled sty CBLKSTY_PTERM) (styled sty CBLKSTY_RESET) term (pieces B sty n k p' t' (fst (coding_pass raw B p t s))) (wipe (styled sty CBLKSTY_RESET) c2)) as [rs sE].
    cbn [fst snd map combine length ends_of] in *. split; [reflexivity | f_equal; exact I2].
Qed.

(** ** Symbols are bits, and not too many *)

(** Every step in [l] emits at most [m] symbols, all bits. *)
Definition small (m : Z) (f : step) : Prop := forall s, bits (snd (f s)) /\ Z.of_nat (length (snd (f s))) <= m.
Lemma bits_app : forall o o', bits o -> bits o' -> bits (o ++ o').
Proof. intros o o' H H' p I. apply in_app_or in I. destruct I; [apply H | apply H']; assumption. Qed.
Lemma bits_nil : bits []. Proof. intros p []. Qed.
Lemma bits_cons : forall cx b o, b = 0 \/ b = 1 -> bits o -> bits ((cx, b) :: o).
Proof. intros cx b o H H' p [<- | I]; [cbn [snd]; lia | apply H', I]. Qed.
Lemma small_steps : forall m l, 0 <= m -> Forall (small m) l -> small (m * Z.of_nat (length l)) (steps l).
Proof.
  intros m l Hm H. induction H as [| f l H1 H2 IH]; intros s; cbn [steps length].
  - split; [apply bits_nil | cbn [snd length]; lia].
  - specialize (H1 s). destruct (f s) as [s1 o1]. specialize (IH s1). destruct (steps l s1) as [s2 o2]. cbn [snd] in *.
    split; [apply bits_app; [apply H1 | apply IH] |]. rewrite app_length. lia.
Qed.
Lemma small_map : forall {A} m (f : A -> step) l, 0 <= m -> (forall a, small m (f a)) -> small (m * Z.of_nat (length l)) (steps (map f l)).
Proof.
  intros A m f l Hm H. rewrite <- (map_length f l). apply small_steps; [exact Hm |]. apply Forall_forall. intros g I. apply in_map_iff in I. destruct I as (a & <- & _). apply H.
Qed.

Lemma code_sign_small : forall raw B x y, small 1 (code_sign raw B x y).
Proof.
  intros raw B x y s. unfold code_sign, sign_context. set (u := clamp1 _). set (v := clamp1 _).
  assert (F : snd (sign_table u v) = 0 \/ snd (sign_table u v) = 1).
  { unfold sign_table. destruct (u =? 1); [| destruct (u =? 0)]; (destruct (v =? 1); [| destruct (v =? 0)]); cbn [snd]; auto. }
  destruct (sign_table u v) as [cx flip]. cbn [snd length] in *. split; [| lia]. apply bits_cons; [| apply bits_nil].
  unfold sign_at. destruct raw, (negative B x y), F as [-> | ->]; cbn; auto.
Qed.
Lemma code_zero_small : forall raw B p x y, small 2 (code_zero raw B p x y).
Proof.
  intros raw B p x y s. unfold code_zero. pose proof (bit_cases B p x y) as Hb. pose proof (code_sign_small raw B x y s) as C.
  destruct (bit_at B p x y =? 1).
  - destruct (code_sign raw B x y s) as [s1 o1]. cbn [snd length] in *. split; [apply bits_cons; [exact Hb | apply C] | lia].
  - cbn [snd length]. split; [apply bits_cons; [exact Hb | apply bits_nil] | lia].
Qed.
Lemma sig_small : forall raw B p x y, small 2 (significance_step raw B p x y).
Proof.
  intros raw B p x y s. unfold significance_step. destruct (_ && _); [| split; [apply bits_nil | cbn; lia]].
  pose proof (code_zero_small raw B p x y s) as C. destruct (code_zero raw B p x y s). exact C.
Qed.
Lemma ref_small : forall B p x y, small 2 (refinement_step B p x y).
Proof.
  intros B p x y s. unfold refinement_step. destruct (_ && _); [| split; [apply bits_nil | cbn; lia]].
  cbn [snd length]. split; [apply bits_cons; [apply bit_cases | apply bits_nil] | lia].
Qed.
Lemma cln_small : forall B p x y, small 2 (cleanup_step B p x y).
Proof.
  intros B p x y s. unfold cleanup_step. destruct (_ && _); [apply code_zero_small | split; [apply bits_nil | cbn; lia]].
Qed.

Lemma rows_len : forall B k, (length (rows B k) <= 4)%nat.
Proof. intros. unfold rows, upto. rewrite !map_length, seq_length. lia. Qed.
Lemma leading_small : forall B p x ys, (leading_zeros B p x ys <= length ys)%nat.
Proof. intros B p x ys. induction ys as [| y ys IH]; cbn [leading_zeros length]; [lia |]. destruct (_ =? 1); lia. Qed.
Lemma small_weaken : forall m m' f, m <= m' -> small m f -> small m' f.
Proof. intros m m' f H S s. specialize (S s). split; [apply S | lia]. Qed.
Lemma column_small : forall B p x ys, (length ys <= 4)%nat -> small 12 (cleanup_column B p x ys).
Proof.
  intros B p x ys Hy s. unfold cleanup_column.
  destruct ((length ys =? 4)%nat && forallb (still B s x) ys) eqn:E.
  - apply andb_prop in E. destruct E as [E _]. apply Nat.eqb_eq in E. pose proof (leading_small B p x ys) as Hl. set (n := leading_zeros B p x ys) in *. clearbody n.
    cbv zeta. pose proof (skipn_length n ys) as Hs. destruct (skipn n ys) as [| y ys']; cbn [length] in Hs.
    + cbn [snd length]. split; [apply bits_cons; [auto | apply bits_nil] | lia].
    + match goal with |- context [code_sign false B x y ?s0] => pose proof (code_sign_small false B x y s0) as C; destruct (code_sign false B x y s0) as [s1 o1] end.
      match goal with |- context [steps ?l ?s0] => pose proof (small_map 2 (cleanup_step B p x) ys' ltac:(lia) (cln_small B p x) s0) as D; destruct (steps l s0) as [s2 o2] end.
      cbn [snd] in *. assert (Hn : n = 0%nat \/ n = 1%nat \/ n = 2%nat \/ n = 3%nat) by lia. split.
      * apply bits_app; [| apply bits_app; [apply C | apply D]]. destruct Hn as [-> | [-> | [-> | ->]]]; cbn; (repeat (apply bits_cons; [auto |]); apply bits_nil).
      * rewrite !app_length. cbn [length]. lia.
  - pose proof (small_map 2 (cleanup_step B p x) ys ltac:(lia) (cln_small B p x) s) as D. destruct (steps _ s) as [s2 o2]. cbn [snd] in *. split; [apply D | lia].
Qed.

Lemma columns_len : forall B, 1 <= width B -> 1 <= height B -> Z.of_nat (length (columns B)) <= width B * height B.
Proof.
  intros B Hw Hh. unfold columns.
  assert (L : forall l, length (flat_map (fun k : Z => map (fun x : Z => (k, x)) (upto (width B))) l) = (length l * Z.to_nat (width B))%nat).
  { induction l as [| k l IH]; cbn [flat_map length]; [reflexivity |]. rewrite app_length, IH, map_length. unfold upto at 1. rewrite map_length, seq_length. lia. }
  rewrite L. unfold upto. rewrite map_length, seq_length. assert (0 <= (height B + 3) / 4 <= height B).
  { split; [apply Z.div_pos; lia |]. apply Z.div_le_upper_bound; lia. } nia.
Qed.

Lemma pass_small : forall raw B p t, good B -> small (12 * (width B * height B)) (coding_pass raw B p t).
Proof.
  intros raw B p t (G1 & G2 & G3). pose proof (columns_len B G1 G2) as L. assert (L12 : 12 * Z.of_nat (length (columns B)) <= 12 * (width B * height B)) by lia.
  assert (R : forall f, (forall y : Z, small 2 (f y)) -> forall k, small 12 (steps (map f (rows B k)))).
  { intros f H k. pose proof (rows_len B k). eapply small_weaken; [| apply (small_map 2 f (rows B k) ltac:(lia) H)]. lia. }
  apply (small_weaken _ _ _ L12). unfold coding_pass. destruct (t =? 0); [| destruct (t =? 1)].
  - unfold significance_pass. apply small_map; [lia |]. intros c. apply R. intros y. apply sig_small.
  - unfold refinement_pass. apply small_map; [lia |]. intros c. apply R. intros y. apply ref_small.
  - unfold cleanup_pass. apply small_map; [lia |]. intros c. apply column_small, rows_len.
Qed.

Lemma out_small : forall raw B sty p t s, good B -> bits (pass_out raw B sty p t s) /\ Z.of_nat (length (pass_out raw B sty p t s)) <= 12 * (width B * height B) + 4.
Proof.
  intros raw B sty p t s G. destruct (pass_small raw B p t G s) as [H1 H2]. unfold pass_out. rewrite app_length. unfold marks. destruct (_ && _).
  - split; [apply bits_app; [exact H1 |]; repeat (apply bits_cons; [auto |]); apply bits_nil | cbn [length]; lia].
  - split; [rewrite app_nil_r; exact H1 | cbn [length]; lia].
Qed.

Lemma pieces_room : forall B sty n k p t s, good B -> width B * height B <= 4096 -> room (pieces B sty n k p t s) <= Z.of_nat k * (32 * (12 * 4096 + 4) + 40).
Proof.
  intros B sty n k. induction k as [| k IH]; intros p t s G Hs; cbn [pieces]; [cbn [room]; lia |]. destruct (p <? 0); [cbn [room]; lia |].
  cbn [room out_of]. pose proof (out_small (is_raw sty n p t) B sty p t s G) as [_ H]. specialize (IH (fst (after_pass p t)) (snd (after_pass p t)) (fst (coding_pass (is_raw sty n p t) B p t s)) G Hs). lia.
Qed.

(** Passes sharing a segment are of the same kind. *)
Lemma raw_next : forall sty n p t, 0 <= n < 2 ^ 31 -> 0 <= p -> 0 <= t < 3 -> enc_is_term sty n p t = false ->
  is_raw sty n (fst (after_pass p t)) (snd (after_pass p t)) = is_raw sty n p t /\ 0 <= fst (after_pass p t).
Proof.
  intros sty n p t Hn Hp Ht E. unfold enc_is_term in E. rewrite i32_id in E by (unfold in_i32; lia). unfold is_raw, after_pass. rewrite i32_id by (unfold in_i32; lia).
  destruct ((t =? 2) && (p =? 0)) eqn:E1; [discriminate |]. destruct (styled sty CBLKSTY_TERMALL); [discriminate |]. destruct (styled sty CBLKSTY_LAZY).
  - destruct (Z.eqb_spec t 2) as [-> | N2].
    + cbn [andb] in E1. apply Z.eqb_neq in E1. change (2 + 1 =? 3) with true. cbn [fst snd]. split; [| lia].
      rewrite andb_true_r in E. destruct (Z.eqb_spec p (n - 4)); [discriminate |]. change (0 <? 2) with true in E. rewrite andb_true_r in E. apply Z.ltb_ge in E.
      destruct (Z.ltb_spec (p - 1) (n - 4)); [lia |]. destruct (Z.ltb_spec p (n - 4)); [lia | reflexivity].
    + rewrite andb_false_r in E. destruct (Z.eqb_spec (t + 1) 3); [lia |]. cbn [fst snd]. split; [| lia].
      destruct (Z.ltb_spec p (n - 4)); [| reflexivity]. cbn [andb] in *. apply Z.ltb_ge in E. assert (t = 0) by lia. subst. reflexivity.
  - rewrite !andb_false_r. split; [reflexivity |]. destruct (Z.eqb_spec (t + 1) 3); cbn [fst]; [| lia].
    assert (t = 2) by lia. subst. cbn [andb Z.eqb Pos.eqb] in E1. apply Z.eqb_neq in E1. lia.
Qed.

Lemma pieces_wf : forall B sty n, good B -> 0 <= n < 2 ^ 31 -> forall k p t s open, -1 <= p -> 0 <= t < 3 -> 3 * p + 3 - t <= Z.of_nat k ->
  (open = None \/ open = Some (is_raw sty n p t) /\ 0 <= p) -> wf open (pieces B sty n k p t s).
Proof.
  intros B sty n G Hn. induction k as [| k IH]; intros p t s open Hp Ht Hk Ho; cbn [pieces].
  - destruct Ho as [-> | [_ Ho]]; [reflexivity | lia].
  - destruct (Z.ltb_spec p 0); [destruct Ho as [-> | [_ Ho]]; [reflexivity | lia] |]. cbn [wf raw_of ends_of out_of]. split.
    { destruct Ho as [-> | [-> _]]; [exact I | reflexivity]. }
    split; [apply out_small, G |].
    assert (Hn' : 0 <= snd (after_pass p t) < 3 /\ -1 <= fst (after_pass p t) /\ 3 * fst (after_pass p t) + 3 - snd (after_pass p t) <= Z.of_nat k).
    { unfold after_pass. destruct (Z.eqb_spec (t + 1) 3); cbn [fst snd]; lia. }
    apply IH; try lia. destruct (enc_is_term sty n p t) eqn:E; [left; reflexivity | right].
    destruct (raw_next sty n p t Hn ltac:(lia) Ht E) as [E1 E2]. rewrite E1. split; [reflexivity | exact E2].
Qed.

(** ** Segments *)

(** Length and number of passes of each segment, from the rates and
    terminations of the passes. *)
Fixpoint segments (prev n : Z) (rates : list Z) (terms : list bool) : list (Z * Z) :=
  match rates, terms with
  | r :: rates, t :: terms => if t then (r - prev, n + 1) :: segments r 0 rates terms else segments prev (n + 1) rates terms
  | _, _ => []
  end.

(** Capping and trimming the rates leaves those of terminated passes alone. *)
Lemma trimmed_segments : forall start reset b e data, (forall i, 0 <= i < e - start -> nth (Z.to_nat i) data 0 = b (start + i)) ->
  forall ps from cx acc rates rs rs' prev n, laid start reset b e from cx acc ps rates -> start <= from ->
  fst (cap_rates rates (e - start)) = rs -> trim_rates data rs = Some rs' ->
  segments prev n rs' (map ends_of ps) = segments prev n rates (map ends_of ps) /\ from - start <= snd (cap_rates rates (e - start)).
Proof.
  intros start reset b e data Hd. induction ps as [| P ps IH]; intros from cx acc rates rs rs' prev n HL Hs Hc Ht; cbn [laid] in HL.
  - destruct rates; [| contradiction]. cbn [cap_rates fst snd] in *. subst. split; [cbn [trim_rates] in Ht; congruence | lia].
  - destruct rates as [| r rates]; [contradiction |]. cbn [cap_rates] in *.
    pose proof (fun from' cx' acc' prev' n' rs1 => IH from' cx' acc' rates (fst (cap_rates rates (e - start))) rs1 prev' n') as IH'. clear IH.
    destruct (cap_rates rates (e - start)) as [l lst]. cbn [fst snd] in IH'.
    assert (Ht2 : exists rs2, trim_rates data l = Some rs2 /\ exists u, rs = u :: l /\ (u = r \/ u = lst) /\ u = Z.min r lst /\ 0 < u /\ rs' = (if nth (Z.to_nat (u - 1)) data 0 =? 255 then u - 1 else u) :: rs2).
    { assert (Eu : exists u, rs = u :: l /\ (u = r \/ u = lst) /\ u = Z.min r lst).
      { destruct (Z.ltb_spec lst r); cbn [fst] in Hc; [exists lst | exists r]; (split; [congruence |]); (split; [auto | lia]). }
      destruct Eu as (u & -> & U1 & U2). cbn [trim_rates] in Ht. destruct (Z.leb_spec u 0); [discriminate |].
      destruct (trim_rates data l) as [rs2 |]; [| discriminate]. exists rs2. split; [reflexivity |]. exists u. split; [reflexivity |]. split; [exact U1 |]. split; [exact U2 |]. split; [lia | congruence]. }
    destruct Ht2 as (rs2 & T2 & u & Eu & Eu2 & Em & Pu & ->). cbn [map segments]. destruct (ends_of P).
    + destruct HL as (L1 & L2 & cx' & L3 & L4). pose proof (laid_le _ _ _ _ _ _ _ _ _ L4) as Le.
      destruct (IH' _ _ _ r 0 rs2 L4 ltac:(lia) eq_refl T2) as [I1 I2].
      assert (Ur : u = r) by lia. rewrite Ur in *. assert (E255 : (nth (Z.to_nat (r - 1)) data 0 =? 255) = false).
      { apply Z.eqb_neq. rewrite Hd by lia. replace (start + (r - 1)) with (start + r - 1) by lia. exact L2. }
      rewrite E255. split; [f_equal; exact I1 |]. destruct (Z.ltb_spec lst r); cbn [snd]; lia.
    + destruct HL as (L1 & L2). destruct (IH' _ _ _ prev (n + 1) rs2 L2 ltac:(lia) eq_refl T2) as [I1 I2]. split; [exact I1 |].
      destruct (Z.ltb_spec lst r); cbn [snd]; lia.
Qed.

Lemma segments_len : forall start reset b e ps from cx acc rates, laid start reset b e from cx acc ps rates -> length rates = length ps.
Proof.
  intros start reset b e. induction ps as [| P ps IH]; intros from cx acc rates H; cbn [laid] in H; (destruct rates as [| r rates]; try contradiction); [reflexivity |].
  cbn [length]. f_equal. destruct (ends_of P); [destruct H as (_ & _ & cx' & _ & H) | destruct H as (_ & H)]; apply IH in H; exact H.
Qed.

(** ** The decoder *)

(** How many passes are left from pass [t] of plane [p] on. *)
Definition left (p t : Z) : Z := 3 * p + 3 - t.
Definition passes_of (segs : list (Z * Z)) : Z := fold_right (fun s n => snd s + n) 0 segs.
Definition bytes_of (segs : list (Z * Z)) : Z := fold_right (fun s n => fst s + n) 0 segs.

Lemma segments_bytes : forall start reset b e ps from cx acc rates n j, laid start reset b e from cx acc ps rates ->
  0 <= bytes_of (firstn j (segments (from - start) n rates (map ends_of ps))) <= e - from.
Proof.
  intros start reset b e. induction ps as [| P ps IH]; intros from cx acc rates n j H; cbn [laid] in H; (destruct rates as [| r rates]; try contradiction); cbn [map segments].
  - rewrite firstn_nil. cbn. lia.
  - destruct (ends_of P).
    + destruct H as (H1 & _ & cx' & _ & H). pose proof (laid_le _ _ _ _ _ _ _ _ _ H) as Le. destruct j as [| j]; [cbn; lia |]. specialize (IH _ _ _ _ 0 j H).
      replace (start + r - start) with r in IH by lia. cbn [firstn bytes_of fold_right fst] in *. unfold bytes_of in IH. lia.
    + destruct H as (_ & H). apply (IH _ _ _ _ (n + 1) j H).
Qed.

Section Decoder.
  Variables (B : block) (sty n r : Z).
  Hypotheses (G : good B) (Hv : causal B = styled sty CBLKSTY_VSC) (Hn : 0 <= n) (Hr : 0 <= r) (Hrn : r + n <= 30).
  Hypothesis Hm : forall x y, inside B x y = true -> 0 <= magnitude B x y < 2 ^ n.
  Hypothesis Hraw : r = 0 \/ styled sty CBLKSTY_LAZY = false.
  Local Notation reset := (styled sty CBLKSTY_RESET).

  Definition stage (p t : Z) (s : state) : Prop :=
    everywhere B (if t =? 0 then before_sig B p else if t =? 1 then before_ref B p else before_cln B p) s.

  Lemma stage_next : forall raw p t s, 0 <= p -> 0 <= t < 3 -> stage p t s ->
    stage (fst (after_pass p t)) (snd (after_pass p t)) (fst (coding_pass raw B p t s)).
  Proof.
    intros raw p t s Hp Ht H. unfold stage, after_pass, coding_pass in *. assert (Hm0 : forall x y, inside B x y = true -> 0 <= magnitude B x y) by (intros; apply Hm; assumption).
    destruct (Z.eqb_spec t 0) as [-> |]; [apply significance_stage; assumption |].
    destruct (Z.eqb_spec t 1) as [-> |]; [apply refinement_stage; assumption |].
    assert (t = 2) by lia. subst. change (2 + 1 =? 3) with true. cbn [fst snd]. change (0 =? 0) with true. cbv iota.
    apply next_plane. replace (p - 1 + 1) with p by lia. apply cleanup_stage; assumption.
  Qed.

  Lemma segsym_dec : forall t q, feeds false (marks sty 2) (d_q t) q ->
    exists t', check_segsym sty t = Some t' /\ d_q t' = q /\ d_f t' = d_f t /\ d_v t' = d_v t.
  Proof.
    intros t q H. unfold marks, check_segsym in *. change (2 =? 2) with true in H. cbn [andb] in H. destruct (styled sty CBLKSTY_SEGSYM).
    - cbn [feeds next] in H. destruct H as (q1 & E1 & q2 & E2 & q3 & E3 & q4 & E4 & ->).
      change (range 0 4) with [0; 1; 2; 3]. cbn [map dsteps]. change T1_CTXNO_UNI with 18. rewrite E1. cbn [d_q d_f d_v]. rewrite E2. cbn [d_q d_f d_v]. rewrite E3. cbn [d_q d_f d_v]. rewrite E4.
      eexists. split; [reflexivity |]. cbn [d_q d_f d_v]. auto.
    - cbn [feeds] in H. subst. exists t. auto.
  Qed.

  Lemma pass_dec : forall raw p t s T q, 0 <= p < n -> 0 <= t < 3 -> (t = 2 -> raw = false) -> DOk B r T s -> stage p t s ->
    feeds raw (pass_out raw B sty p t s) (d_q T) q ->
    exists T', dec_pass raw (width B) (height B) (band B) (r + p + 1) sty t T = Some T' /\ d_q T' = forget (reset && negb raw) q /\ DOk B r T' (fst (coding_pass raw B p t s)).
  Proof.
    intros raw p t s T q Hp Ht H2 O St Hq. unfold pass_out in Hq. apply feeds_app in Hq. destruct Hq as (q1 & Q1 & Q2). unfold dec_pass. cbv zeta.
    assert (K : exists T', (if t =? 0 then dec_sigpass raw (width B) (height B) (band B) (r + p + 1) sty T
                            else if t =? 1 then dec_refpass raw (width B) (height B) (r + p + 1) T
                            else if t =? 2 then dsteps [dec_clnpass (width B) (height B) (band B) (r + p + 1) sty; check_segsym sty] T
                            else Some T) = Some T' /\ d_q T' = q /\ DOk B r T' (fst (coding_pass raw B p t s))).
    { unfold coding_pass, stage in *. destruct (Z.eqb_spec t 0) as [-> |].
      - change (marks sty 0) with (@nil sym) in Q2. cbn [feeds] in Q2. subst q1. apply (dec_sigpass_sim B r p n sty G Hr Hp Hrn Hv raw T s q O St Q1).
      - destruct (Z.eqb_spec t 1) as [-> |].
        + change (marks sty 1) with (@nil sym) in Q2. cbn [feeds] in Q2. subst q1. apply (dec_refpass_sim B r p n G Hr Hp Hrn Hm raw T s q O St Q1).
        + assert (t = 2) by lia. subst t. rewrite (H2 eq_refl) in *. change (2 =? 2) with true. cbv iota. cbn [dsteps].
          destruct (dec_clnpass_sim B r p n sty G Hr Hp Hrn Hv T s q1 O St Q1) as (T1 & -> & E1 & O1). subst q1.
          destruct (segsym_dec T1 q Q2) as (T2 & -> & E2 & E3 & E4). exists T2. split; [reflexivity |]. split; [exact E2 |].
          unfold DOk in *. rewrite E3, E4. exact O1. }
    destruct K as (T' & -> & E & O'). subst q. unfold forget. destruct (reset && negb raw).
    - eexists. split; [reflexivity |]. split; [reflexivity | exact O'].
    - exists T'. split; [reflexivity |]. split; [reflexivity | exact O'].
  Qed.

  (** [outs] are the symbols of the passes from one point to another. *)
  Fixpoint trace (raw : bool) (outs : list (list sym)) (p t : Z) (s : state) (p' t' : Z) (s' : state) : Prop :=
    match outs with
    | [] => p' = p /\ t' = t /\ s' = s
    | o :: outs => 0 <= p < n /\ 0 <= t < 3 /\ (t = 2 -> raw = false) /\ o = pass_out raw B sty p t s /\
        trace raw outs (fst (after_pass p t)) (snd (after_pass p t)) (fst (coding_pass raw B p t s)) p' t' s'
    end.
  Lemma trace_app : forall raw outs o p t s p' t' s', trace raw outs p t s p' t' s' -> 0 <= p' < n -> 0 <= t' < 3 -> (t' = 2 -> raw = false) ->
    o = pass_out raw B sty p' t' s' ->
    trace raw (outs ++ [o]) p t s (fst (after_pass p' t')) (snd (after_pass p' t')) (fst (coding_pass raw B p' t' s')).
  Proof.
    intros raw outs. induction outs as [| o1 outs IH]; intros o p t s p' t' s' H Hp Ht H2 E; cbn [app trace] in *.
    - destruct H as (-> & -> & ->). exact (conj Hp (conj Ht (conj H2 (conj E (conj eq_refl (conj eq_refl eq_refl)))))).
    - destruct H as (A1 & A2 & A3 & A4 & A5). exact (conj A1 (conj A2 (conj A3 (conj A4 (IH _ _ _ _ _ _ _ A5 Hp Ht H2 E))))).
  Qed.
  Lemma trace_left : forall raw outs p t s p' t' s', trace raw outs p t s p' t' s' -> left p' t' = left p t - Z.of_nat (length outs).
  Proof.
    intros raw outs. induction outs as [| o outs IH]; intros p t s p' t' s' H; cbn [trace length] in *.
    - destruct H as (-> & -> & ->). lia.
    - destruct H as (A1 & A2 & A3 & A4 & A5). apply IH in A5. rewrite A5. unfold left, after_pass. destruct (Z.eqb_spec (t + 1) 3); cbn [fst snd]; lia.
  Qed.

  Lemma passes_dec : forall raw outs p t s p' t' s' T q, trace raw outs p t s p' t' s' -> DOk B r T s -> stage p t s ->
    runs raw reset outs (d_q T) q ->
    exists T', dec_passes (length outs) raw (width B) (height B) (band B) (r + p + 1) sty t T = Some (r + p' + 1, t', T') /\ d_q T' = q /\ DOk B r T' s' /\ stage p' t' s'.
  Proof.
    intros raw outs. induction outs as [| o outs IH]; intros p t s p' t' s' T q HT O St Hq; cbn [trace length dec_passes runs] in *.
    - destruct HT as (-> & -> & ->). subst q. exists T. auto.
    - destruct HT as (Hp & Ht & H2 & -> & HT). destruct Hq as (q1 & Q1 & Q2). destruct (Z.ltb_spec (r + p + 1) 1); [lia |].
      destruct (pass_dec raw p t s T q1 Hp Ht H2 O St Q1) as (T1 & -> & E1 & O1).
      pose proof (stage_next raw p t s ltac:(lia) Ht St) as St1.
      assert (Ea : (if t + 1 =? 3 then (r + p + 1 - 1, 0) else (r + p + 1, t + 1)) = (r + fst (after_pass p t) + 1, snd (after_pass p t))).
      { unfold after_pass. destruct (t + 1 =? 3); cbn [fst snd]; f_equal; lia. }
      rewrite Ea. cbv iota beta. rewrite <- E1 in Q2. apply (IH _ _ _ _ _ _ T1 q HT O1 St1 Q2).
  Qed.

  Lemma raw_agree : forall p t, ((r + p + 1 <=? i32 n - 4) && (t <? 2) && styled sty CBLKSTY_LAZY) = is_raw sty n p t.
  Proof.
    intros p t. unfold is_raw. rewrite i32_id by (unfold in_i32; lia). destruct Hraw as [-> | ->]; [| rewrite !andb_false_r; reflexivity].
    f_equal. f_equal. destruct (Z.leb_spec (0 + p + 1) (n - 4)), (Z.ltb_spec p (n - 4)); lia.
  Qed.

  Lemma after_facts : forall p t, 0 <= p < n -> 0 <= t < 3 -> let p' := fst (after_pass p t) in let t' := snd (after_pass p t) in
    -1 <= p' < n /\ 0 <= t' < 3 /\ left p' t' = left p t - 1 /\ 0 <= left p' t'.
  Proof. intros p t Hp Ht. unfold left, after_pass. destruct (Z.eqb_spec (t + 1) 3); cbn [fst snd]; lia. Qed.

  Theorem segments_dec : forall start b e, e - start < 2 ^ 32 ->
    forall k p t s acc p0 t0 s0 from cx rates f v m j, let ps := pieces B sty n k p t s in
    -1 <= p < n -> 0 <= t < 3 -> 0 <= left p t <= Z.of_nat k -> -1 <= p0 -> 0 <= t0 < 3 ->
    trace (is_raw sty n p0 t0) acc p0 t0 s0 p t s -> (acc <> [] -> is_raw sty n p t = is_raw sty n p0 t0 /\ 0 <= p) ->
    laid start reset b e from cx acc ps rates -> start <= from ->
    let segs := segments (from - start) (Z.of_nat (length acc)) rates (map ends_of ps) in
    (forall i, from <= i < from + bytes_of (firstn j segs) -> m (i - start) = b i) ->
    (forall q, DOk B r (mkDst f v q) s0) -> stage p0 t0 s0 ->
    exists v' p' t' s', dec_segments (firstn j segs) (width B) (height B) (band B) sty n (r + p0 + 1) t0 (from - start) m cx f v = Some v' /\
      vals B r v' s' /\ stage p' t' s' /\ left p' t' = left p0 t0 - passes_of (firstn j segs) /\ -1 <= p' /\ 0 <= t' < 3 /\ ((length segs <= j)%nat -> left p' t' = 0).
  Proof.
    intros start b e He. induction k as [| k IH]; intros p t s acc p0 t0 s0 from cx rates f v m j ps Hp Ht Hk Hp0 Ht0 HT Ha HL Hs segs Hc O St.
    - assert (p < 0) by (unfold left in Hk; lia). destruct acc; [| destruct (Ha ltac:(discriminate)); lia]. cbn [trace] in HT. destruct HT as (-> & -> & ->).
      cbn [pieces laid] in HL. destruct rates; [| contradiction]. unfold segs. cbn [pieces map segments]. rewrite firstn_nil. exists v, p0, t0, s0. cbn [dec_segments length passes_of fold_right].
      split; [reflexivity |]. split; [apply (O (init_dec m 0 0 cx)) |]. split; [exact St |]. split; [lia |]. split; [lia |]. split; [lia |]. lia.
    - destruct (Z.ltb_spec p 0) as [L | L].
      { destruct acc; [| destruct (Ha ltac:(discriminate)); lia]. cbn [trace] in HT. destruct HT as (-> & -> & ->).
        assert (Ep : ps = []) by (unfold ps; cbn [pieces]; destruct (Z.ltb_spec p0 0); [reflexivity | lia]).
        rewrite Ep in HL. cbn [laid] in HL. destruct rates; [| contradiction]. unfold segs. rewrite Ep. cbn [map segments]. rewrite firstn_nil. exists v, p0, t0, s0. cbn [dec_segments length passes_of fold_right].
        split; [reflexivity |]. split; [apply (O (init_dec m 0 0 cx)) |]. split; [exact St |]. split; [lia |]. split; [lia |]. split; [lia |]. intros _. unfold left in *. lia. }
      pose proof (after_facts p t ltac:(lia) Ht) as AF. cbv zeta in AF. destruct AF as (F1 & F2 & F3 & F4).
      set (p1 := fst (after_pass p t)) in *. set (t1 := snd (after_pass p t)) in *.
      assert (Ep : ps = mkPiece (is_raw sty n p t) (enc_is_term sty n p t) (pass_out (is_raw sty n p t) B sty p t s)
                        :: pieces B sty n k p1 t1 (fst (coding_pass (is_raw sty n p t) B p t s))) by (unfold ps; cbn [pieces]; destruct (Z.ltb_spec p 0); [lia | reflexivity]).
      unfold segs in *. rewrite Ep in HL, Hc |- *. clear ps segs Ep. cbn [laid] in HL. destruct rates as [| r1 rates]; [contradiction |]. cbn [map segments ends_of raw_of out_of] in HL, Hc |- *.
      assert (ER : is_raw sty n p t = is_raw sty n p0 t0).
      { destruct acc as [| o acc]; [| apply Ha; discriminate]. cbn [trace] in HT. destruct HT as (-> & -> & _). reflexivity. }
      assert (HT1 : trace (is_raw sty n p0 t0) (acc ++ [pass_out (is_raw sty n p t) B sty p t s]) p0 t0 s0 p1 t1 (fst (coding_pass (is_raw sty n p t) B p t s))).
      { rewrite ER. apply trace_app; try assumption; try lia; [| reflexivity]. intros ->. rewrite <- ER. apply raw_not_cleanup. }
      destruct (enc_is_term sty n p t) eqn:Eterm.
      + destruct HL as (L1 & L2 & cx' & L3 & L4). pose proof (laid_le _ _ _ _ _ _ _ _ _ L4) as Le.
        destruct j as [| j].
        { cbn [firstn dec_segments]. exists v, p0, t0, s0. split; [reflexivity |]. split; [apply (O (init_dec m 0 0 cx)) |]. split; [exact St |]. cbn [passes_of fold_right length].
          split; [lia |]. split; [lia |]. split; [lia |]. lia. }
        pose proof (segments_bytes _ _ _ _ _ _ _ _ _ 0 j L4) as Sb. replace (start + r1 - start) with r1 in Sb by lia.
        cbn [firstn dec_segments bytes_of fold_right fst] in Hc |- *. change (fold_right (fun s n0 => fst s + n0) 0) with bytes_of in Hc. rewrite raw_agree.
        destruct (L3 m (from - start)) as (d & D1 & D2 & D3).
        { intros i Hi. replace (from - start + i) with (from + i - start) by lia. apply Hc. lia. }
        replace (r1 - (from - start)) with (start + r1 - from) by lia.
        set (q0 := if is_raw sty n p0 t0 then raw_init_dec m (from - start) (start + r1 - from) cx else init_dec m (from - start) (start + r1 - from) cx).
        assert (D1' : runs (is_raw sty n p0 t0) reset (acc ++ [pass_out (is_raw sty n p t) B sty p t s]) q0 d) by (rewrite ER in D1 at 1 3; exact D1).
        destruct (passes_dec _ _ _ _ _ _ _ _ (mkDst f v q0) d HT1 (O q0) St D1') as (T' & E1 & E2 & E3 & E4).
        replace (Z.to_nat (Z.of_nat (length acc) + 1)) with (length (acc ++ [pass_out (is_raw sty n p t) B sty p t s])) by (rewrite app_length; cbn [length]; lia).
        rewrite E1. rewrite E2, D2.
        assert (Eu : u32 (from - start + (start + r1 - from)) = start + r1 - start) by (unfold u32; rewrite Z.mod_small by lia; lia). rewrite Eu.
        assert (HT2 : trace (is_raw sty n p1 t1) [] p1 t1 (fst (coding_pass (is_raw sty n p t) B p t s)) p1 t1 (fst (coding_pass (is_raw sty n p t) B p t s))) by (split; [reflexivity | split; reflexivity]).
        replace (segments r1 0) with (segments (start + r1 - start) (Z.of_nat (@length (list sym) []))) by (f_equal; cbn [length]; lia).
        edestruct (IH p1 t1 _ [] p1 t1 _ (start + r1) cx' rates (d_f T') (d_v T') (finish_dec d) j F1 F2 ltac:(lia) ltac:(lia) F2 HT2 ltac:(intros C; congruence) L4 ltac:(lia))
          as (v' & p' & t' & s' & R1 & R2 & R3 & R4 & R5 & R6 & R7).
        { intros i Hi. rewrite D3. apply Hc. replace (start + r1 - start) with r1 in Hi by lia. cbn [length] in Hi. change (Z.of_nat 0) with 0 in Hi. lia. } { intros q. exact E3. } { exact E4. }
        exists v', p', t', s'. split; [exact R1 |]. split; [exact R2 |]. split; [exact R3 |]. split.
        { rewrite R4. pose proof (trace_left _ _ _ _ _ _ _ _ HT1) as TL. rewrite app_length in TL. cbn [length] in TL. cbn [passes_of fold_right snd].
          match goal with |- _ - passes_of ?a = _ => change (fold_right (fun s n0 => snd s + n0) 0 a) with (passes_of a) end. lia. }
        split; [exact R5 |]. split; [exact R6 |]. intros Hj. apply R7. apply le_S_n. exact Hj.
      + destruct HL as (L1 & L2). destruct (raw_next sty n p t ltac:(lia) L Ht Eterm) as [RN1 RN2].
        assert (Ela : Z.of_nat (length acc) + 1 = Z.of_nat (length (acc ++ [pass_out (is_raw sty n p t) B sty p t s]))) by (rewrite app_length; cbn [length]; lia). rewrite Ela in Hc |- *.
        apply IH with (1 := F1) (2 := F2) (6 := HT1); try assumption; try lia.
        intros _. split; [fold p1 t1 in RN1; congruence | exact RN2].
  Qed.
End Decoder.

(** ** The encoder, altogether *)

Lemma nth_bytes : forall m start n i, 0 <= i < n -> nth (Z.to_nat i) (bytes_at m start n) 0 = m (start + i).
Proof.
  intros m start n i Hi. unfold bytes_at. rewrite (nth_indep _ 0 (m (start + Z.of_nat 0))) by (rewrite map_length, seq_length; lia).
  rewrite (map_nth (fun i => m (start + Z.of_nat i)) (seq 0 (Z.to_nat n)) 0%nat). rewrite seq_nth by lia. f_equal. lia.
Qed.

Lemma combine_parts : forall {A C} (l : list A) (l0 : list C), length l = length l0 -> map fst (combine l l0) = l /\ map snd (combine l l0) = l0.
Proof.
  intros A C l. induction l as [| a l IH]; intros [| b l0] L; cbn in *; try discriminate; [split; reflexivity |].
  destruct (IH l0 ltac:(lia)) as [E1 E2]. split; f_equal; assumption.
Qed.

(** The end of [encode_cblk]. *)
Definition finish_block (start numbps : Z) (o : option (list (Z * bool) * mqc)) : option coded :=
  match o with
  | None => None
  | Some (passes, s) =>
      if negb (ok s) then None else
      match passes with
      | [] => Some (mkCoded numbps [] [] [])
      | _ =>
        let n := u32 (numbytes start s) in
        let bytes := bytes_at (buf s) start n in
        match trim_rates bytes (fst (cap_rates (map fst passes) n)) with
        | None => None
        | Some rates => Some (mkCoded numbps rates (map snd passes) bytes)
        end
      end
  end.
Lemma encode_cblk_eq : forall start w h orient sty data m, encode_cblk start w h orient sty data m =
  if enc_numbps (max_abs (w * h) data) =? 0 then Some (mkCoded 0 [] [] [])
  else finish_block start (enc_numbps (max_abs (w * h) data))
         (enc_loop 100 start w h orient sty (enc_numbps (max_abs (w * h) data)) (i32 (enc_numbps (max_abs (w * h) data) - 1)) 2 false
            (fun i => to_smr (data i)) (init_flags w h) (init_enc start m reset_ctxs)).
Proof. reflexivity. Qed.
Lemma finish_shape : forall start n (ps : list piece) (pl : list Z * mqc), length (fst pl) = length ps -> Ready start (snd pl) -> start <= bp (snd pl) -> bp (snd pl) - start < 2 ^ 32 -> ps <> [] ->
  finish_block start n (Some (combine (fst pl) (map ends_of ps), snd pl)) =
  let N := bp (snd pl) - start in
  let data := bytes_at (buf (snd pl)) start N in
  match trim_rates data (fst (cap_rates (fst pl) N)) with
  | None => None
  | Some rates => Some (mkCoded n rates (map ends_of ps) data)
  end.
Proof.
  intros start n ps pl L R1 R2 R3 EP. unfold finish_block. rewrite (rd_ok _ _ R1). cbn [negb].
  assert (L2 : length (fst pl) = length (map ends_of ps)) by (rewrite map_length; exact L).
  destruct (combine_parts _ _ L2) as [F1 F2].
  assert (Eu : u32 (numbytes start (snd pl)) = bp (snd pl) - start) by (unfold numbytes; apply u32_small; lia). rewrite F1, F2, Eu.
  destruct (combine (fst pl) (map ends_of ps)) as [| c0 l0] eqn:Ec; [| reflexivity].
  exfalso. destruct ps; [congruence |]. destruct (fst pl); cbn [length map combine] in L, Ec; discriminate.
Qed.

Section Encoder.
  Variables (start w h orient sty : Z) (x : Z -> Z -> Z) (m : mem).
  Hypotheses (Hw : 1 <= w) (Hh : 1 <= h) (Hs : w * h <= 4096) (Ho : 0 <= orient < 4).
  Hypothesis Hx : forall i j, 0 <= i < w -> 0 <= j < h -> in_i32 (x i j).
  Hypotheses (Hb : bytes m) (Hm : m (start - 1) <> 255).
  Local Notation n := (planes w h x).
  Local Notation B := (block_of w h orient sty x).
  Local Notation reset := (styled sty CBLKSTY_RESET).

  Definition plan (K : nat) : list piece := pieces B sty n K (n - 1) 2 (initial n).
  Definition played (K : nat) : list Z * mqc := run start (styled sty CBLKSTY_PTERM) reset false (plan K) (init_enc start m reset_ctxs).

  Lemma block_good : good B. Proof. split; [exact Hw | split; [exact Hh | exact Ho]]. Qed.

  Lemma plan_some : forall K, 1 <= n -> exists P ps, plan (S K) = P :: ps.
  Proof. intros K Hn. apply pieces_some. lia. Qed.

  Lemma played_ok : forall K, 1 <= n <= 25 -> 3 * n <= Z.of_nat (S K) <= 100 -> result start reset start reset_ctxs m [] (plan (S K)) (played (S K)).
  Proof.
    intros K Hn HK. pose proof (init_fresh start m reset_ctxs Hb Hm reset_valid) as F. pose proof (pieces_room B sty n (S K) (n - 1) 2 (initial n) block_good Hs) as R.
    assert (E1 : bp (init_enc start m reset_ctxs) + 1 = start) by (unfold init_enc; cbn [check bp]; lia).
    pose proof (run_fresh start (styled sty CBLKSTY_PTERM) reset (plan (S K)) (init_enc start m reset_ctxs)) as RF. rewrite E1 in RF. unfold played.
    apply RF; [exact F | intros _; reflexivity | destruct (plan_some K ltac:(lia)) as (P & ps & ->); discriminate | |].
    - apply pieces_wf; try lia; [exact block_good |]. right. rewrite raw_not_cleanup. split; [reflexivity | lia].
    - unfold plan. lia.
  Qed.

  Lemma loop_any : forall K, 1 <= n <= 25 -> 3 * n <= Z.of_nat K ->
    enc_loop K start w h orient sty n (n - 1) 2 false (smr w h x) (init_flags w h) (init_enc start m reset_ctxs) = Some (combine (fst (played K)) (map ends_of (plan K)), snd (played K)) /\
    length (fst (played K)) = length (plan K).
  Proof.
    intros K Hn HK. assert (Hh0 : 0 <= h) by lia.
    apply (loop_run B (smr w h x) sty n start block_good eq_refl (held_smr w h orient sty x Hh0 Hx) K (n - 1) 2 false (init_flags w h) (initial n)); try lia.
    apply (init_ok B n block_good).
  Qed.

  Lemma encode_shape : 1 <= n <= 25 -> exists K, (3 * n <= Z.of_nat (S K) <= 100) /\
    let N := bp (snd (played (S K))) - start in
    let data := bytes_at (buf (snd (played (S K)))) start N in
    encode_cblk start w h orient sty (stripe_order w h x) m =
      match trim_rates data (fst (cap_rates (fst (played (S K))) N)) with
      | None => None
      | Some rates => Some (mkCoded n rates (map ends_of (plan (S K))) data)
      end.
  Proof.
    intros Hn. exists 99%nat. split; [lia |]. rewrite encode_cblk_eq. fold n. change (fun i => to_smr (stripe_order w h x i)) with (smr w h x).
    assert (E0 : (n =? 0) = false) by (apply Z.eqb_neq; lia). rewrite E0. rewrite (i32_id (n - 1)) by (unfold in_i32; lia).
    assert (HK : 3 * n <= Z.of_nat (S 99) <= 100) by lia. revert HK. generalize 99%nat as K. intros K HK.
    destruct (loop_any (S K) Hn ltac:(lia)) as [E L]. rewrite E. clear E.
    destruct (played_ok K Hn HK) as (R1 & R2 & R3 & _). assert (EP : plan (S K) <> []) by (destruct (plan_some K ltac:(lia)) as (P & ps & ->); discriminate).
    apply finish_shape; assumption.
  Qed.

  Lemma encode_nothing : ~ 1 <= n <= 25 -> exists N, encode_cblk start w h orient sty (stripe_order w h x) m = Some (mkCoded N [] [] []) /\ (N = 0 \/ 2 ^ 32 - 6 < N < 2 ^ 32).
  Proof.
    intros Hn. destruct (planes_cases w h x Hw Hh Hx) as [[C _] | [C _]]; [contradiction |]. exists n. split; [| exact C].
    unfold encode_cblk. fold n. destruct (Z.eqb_spec n 0) as [E | E]; [rewrite E; reflexivity |]. destruct C as [C | C]; [contradiction |].
    assert (Ei : i32 (n - 1) = n - 1 - 2 ^ 32).
    { unfold i32. replace (n - 1 + 2 ^ 31) with ((n - 1 - 2 ^ 31) + 1 * 2 ^ 32) by lia. rewrite Z.mod_add, Z.mod_small by lia. lia. }
    rewrite Ei, loop_none by lia. cbn [map].
    unfold init_enc, cur. cbn [check c a ct bp buf ctxs ok]. rewrite (proj2 (Z.eqb_neq _ _) Hm). reflexivity.
  Qed.
End Encoder.
