(** Proofs about the sparse array. *)

From Coq Require Import ZArith List Bool Lia.
From Verif Require Import Ints Mem SparseModel.
Import ListNotations.
Local Open Scope Z_scope.
Ltac Zify.zify_post_hook ::= Z.div_mod_to_equations.

(** ** Loops *)

Lemma loop_app : forall {A} n k i (f : Z -> A -> A) s, loop (n + k) i f s = loop k (i + Z.of_nat n) f (loop n i f s).
Proof.
  intros A n. induction n; intros k i f s; cbn [loop Nat.add].
  - f_equal. lia.
  - rewrite IHn. f_equal. lia.
Qed.

Lemma for_split : forall {A} a b c (f : Z -> A -> A) s, a <= b <= c -> for_to a c f s = for_to b c f (for_to a b f s).
Proof.
  intros A a b c f s H. unfold for_to. replace (Z.to_nat (c - a)) with (Z.to_nat (b - a) + Z.to_nat (c - b))%nat by lia.
  rewrite loop_app. f_equal. lia.
Qed.

Lemma for_one : forall {A} a (f : Z -> A -> A) s, for_to a (a + 1) f s = f a s.
Proof. intros. unfold for_to. replace (Z.to_nat (a + 1 - a)) with 1%nat by lia. reflexivity. Qed.

Lemma mask_down : forall n, 0 <= n < 2 ^ 32 -> Z.land n (u32 (Z.lnot 3)) = 4 * (n / 4).
Proof.
  intros n Hn. change (u32 (Z.lnot 3)) with (Z.shiftl (Z.ones 30) 2).
  replace (4 * (n / 4)) with (Z.shiftl (Z.shiftr n 2) 2).
  2:{ rewrite Z.shiftl_mul_pow2, Z.shiftr_div_pow2 by lia. change (2 ^ 2) with 4. lia. }
  apply Z.bits_inj'. intros i Hi. rewrite Z.land_spec, !Z.shiftl_spec by lia.
  destruct (Z_lt_le_dec i 2).
  - rewrite (Z.testbit_neg_r (Z.ones 30)), (Z.testbit_neg_r (Z.shiftr n 2)) by lia. apply andb_false_r.
  - rewrite Z.shiftr_spec by lia. replace (i - 2 + 2) with i by lia.
    destruct (Z_lt_le_dec i 32).
    + rewrite Z.ones_spec_low by lia. apply andb_true_r.
    + assert (Z.log2 n < i).
      { destruct (Z.eq_dec n 0) as [E |]; [rewrite E; cbn; lia |].
        pose proof (proj1 (Z.log2_lt_pow2 n 32 ltac:(lia)) ltac:(lia)). lia. }
      rewrite (Z.bits_above_log2 n) by lia.
      reflexivity.
Qed.

Lemma unrolled_spec : forall n one m, 0 <= n < 2 ^ 32 -> unrolled n one m = for_to 0 n one m.
Proof.
  intros n one m Hn. unfold unrolled. rewrite mask_down by exact Hn.
  rewrite (for_split 0 (4 * (n / 4)) n) by lia. f_equal.
  replace (4 * (n / 4) / 4) with (n / 4) by lia.
  apply (for_ind (fun i s => s = for_to 0 (4 * i) one m)); [lia | reflexivity |].
  intros i s Hi ->. rewrite (for_split 0 (4 * i) (4 * (i + 1))) by lia.
  set (s := for_to 0 (4 * i) one m).
  rewrite (for_split (4 * i) (4 * i + 3)) by lia. replace (4 * (i + 1)) with (4 * i + 3 + 1) by lia. rewrite for_one.
  rewrite (for_split (4 * i) (4 * i + 2)) by lia. replace (4 * i + 3) with (4 * i + 2 + 1) at 3 by lia. rewrite for_one.
  rewrite (for_split (4 * i) (4 * i + 1)) by lia. replace (4 * i + 2) with (4 * i + 1 + 1) at 3 by lia. rewrite for_one.
  rewrite for_one. reflexivity.
Qed.

Lemma read_line_spec : forall cs yi xi one m, 0 <= xi < 2 ^ 32 -> read_line cs yi xi one m = for_to 0 xi one m.
Proof.
  intros cs yi xi one m H. unfold read_line. destruct (cs =? 1); [reflexivity |].
  destruct (Z.eqb_spec xi 1) as [-> | _]; [symmetry; apply (for_one 0) |].
  destruct ((yi =? 1) && (cs =? 2)); [apply unrolled_spec, H |].
  destruct ((8 <=? xi) && (cs =? 8)); [apply unrolled_spec, H | reflexivity].
Qed.

Lemma write_line_spec : forall cs xi one m, 0 <= xi < 2 ^ 32 -> write_line cs xi one m = for_to 0 xi one m.
Proof.
  intros cs xi one m H. unfold write_line. destruct (cs =? 1); [reflexivity |].
  destruct (Z.eqb_spec xi 1) as [-> | _]; [symmetry; apply (for_one 0) |].
  destruct ((8 <=? xi) && (cs =? 8)); [apply unrolled_spec, H | reflexivity].
Qed.

(** Filling a grid of distinct cells. *)
Lemma grid_fill : forall nj nk (at_ v : Z -> Z -> Z) m, 0 <= nj -> 0 <= nk ->
  (forall j k j' k', 0 <= j < nj -> 0 <= k < nk -> 0 <= j' < nj -> 0 <= k' < nk ->
     at_ j k = at_ j' k' -> j = j' /\ k = k') ->
  let m' := for_to 0 nj (fun j m => for_to 0 nk (fun k m => upd m (at_ j k) (v j k)) m) m in
  (forall j k, 0 <= j < nj -> 0 <= k < nk -> m' (at_ j k) = v j k) /\
  (forall a, (forall j k, 0 <= j < nj -> 0 <= k < nk -> a <> at_ j k) -> m' a = m a).
Proof.
  intros nj nk at_ v m Hnj Hnk Hinj m'. subst m'.
  pose (P := fun (n : Z) (m' : mem) => n <= nj ->
    (forall j k, 0 <= j < n -> 0 <= k < nk -> m' (at_ j k) = v j k) /\
    (forall a, (forall j k, 0 <= j < n -> 0 <= k < nk -> a <> at_ j k) -> m' a = m a)).
  assert (H : P nj (for_to 0 nj (fun j m => for_to 0 nk (fun k m => upd m (at_ j k) (v j k)) m) m)).
  { apply (for_ind P); [exact Hnj | |].
    - intros _. split; intros; [lia | reflexivity].
    - intros j n Hj IH Hle. destruct (IH ltac:(lia)) as [A B].
      destruct (fill_spec 0 nk (at_ j) (v j) (fun k m => upd m (at_ j k) (v j k)) n) as [C D].
      + intros k k' Hk Hk' E. destruct (Hinj j k j k' ltac:(lia) Hk ltac:(lia) Hk' E) as [_ ->]. reflexivity.
      + reflexivity.
      + split.
        * intros j' k Hj' Hk. destruct (Z.eq_dec j' j) as [-> | Hne]; [apply C, Hk |].
          rewrite D; [apply A; lia |]. intros k' Hk' E.
          destruct (Hinj j' k j k' ltac:(lia) Hk ltac:(lia) Hk' E). contradiction.
        * intros a Ha. rewrite D by (intros; apply Ha; lia). apply B. intros. apply Ha; lia. }
  apply H. lia.
Qed.

(** ** Spans *)

Definition good_span (bs a0 a1 : Z) (sp : span) : Prop :=
  a0 <= pos sp /\ 1 <= incr sp /\ pos sp + incr sp <= a1 /\
  off sp = pos sp mod bs /\ off sp + incr sp <= bs /\ blk sp = pos sp / bs.

Lemma spans_good : forall bs a0 a1 fuel a b, 1 <= bs < 2 ^ 32 -> 0 <= a0 <= a -> a1 < 2 ^ 32 ->
  (a < a1 -> (a = a0 \/ a mod bs = 0) /\ b = a / bs) ->
  Forall (good_span bs a0 a1) (spans bs a0 a1 fuel a b) /\
  (a1 - a <= Z.of_nat fuel -> forall p, a <= p < a1 ->
     exists sp, In sp (spans bs a0 a1 fuel a b) /\ pos sp <= p < pos sp + incr sp).
Proof.
  intros bs a0 a1 fuel. induction fuel; intros a b Hbs Ha Ha1 Hinv; cbn [spans].
  - split; [constructor |]. intros; lia.
  - destruct (Z.ltb_spec a a1) as [L | L]; [| split; [constructor | intros; lia]].
    destruct (Hinv L) as [Hal Hb].
    set (i := if a =? a0 then u32 (bs - a0 mod bs) else bs).
    assert (Ei : i = bs - a mod bs).
    { unfold i. pose proof (Z.mod_pos_bound a0 bs ltac:(lia)). destruct (Z.eqb_spec a a0) as [-> | Hne].
      - apply u32_id. lia.
      - destruct Hal as [-> | ->]; [contradiction | lia]. }
    pose proof (Z.mod_pos_bound a bs ltac:(lia)) as Hm.
    rewrite (u32_id (bs - i)) by lia. rewrite (u32_id (a1 - a)) by lia.
    set (i' := Z.min i (a1 - a)). assert (Hi' : 1 <= i' <= i /\ i' <= a1 - a) by (unfold i'; lia).
    rewrite (u32_id (a + i')) by lia.
    destruct (IHfuel (a + i') (u32 (b + 1)) Hbs ltac:(lia) Ha1) as [G C].
    { intros L'. assert (Ei' : i' = i) by (unfold i' in *; lia). rewrite Ei', Ei.
      pose proof (Z.div_mod a bs ltac:(lia)) as E.
      replace (a + (bs - a mod bs)) with ((a / bs + 1) * bs) by nia.
      rewrite Z.mod_mul, Z.div_mul by lia. split; [right; reflexivity |].
      rewrite Hb. apply u32_id. assert (0 <= a / bs) by (apply Z.div_pos; lia).
      assert (a / bs <= a) by (apply Z.div_le_upper_bound; nia). lia. }
    split.
    + constructor; [| exact G]. unfold good_span. cbn [pos incr off blk]. lia.
    + intros Hf p Hp. destruct (Z_lt_le_dec p (a + i')) as [L' | L'].
      * exists (mkSpan a i' (bs - i) b). split; [left; reflexivity |]. cbn [pos incr]. lia.
      * destruct (C ltac:(lia) p ltac:(lia)) as (sp & Hin & Hsp). exists sp. split; [right; exact Hin | exact Hsp].
Qed.

Ltac Zify.zify_post_hook ::= idtac.

(** ** The array *)

Lemma index_bound : forall a b c d, 0 <= a < c -> 0 <= b < d -> d * c < 2 ^ 32 ->
  0 <= a * d < 2 ^ 32 /\ 0 <= a * d + b < 2 ^ 32.
Proof. intros. assert (a * d + d <= d * c) by nia. split; nia. Qed.

Definition wf (s : sparse) : Prop :=
  1 <= width s < 2 ^ 32 /\ 1 <= height s < 2 ^ 32 /\ 1 <= block_width s < 2 ^ 32 /\ 1 <= block_height s < 2 ^ 32 /\
  block_count_hor s = (width s + block_width s - 1) / block_width s /\
  block_count_ver s = (height s + block_height s - 1) / block_height s /\
  block_count_hor s * block_count_ver s < 2 ^ 32.

Lemma ceil_bound : forall x w b, 1 <= b -> 0 <= x < w -> 0 <= x / b < (w + b - 1) / b.
Proof.
  intros x w b Hb Hx. split; [apply Z.div_pos; lia |].
  assert ((x + 1 * b) / b <= (w + b - 1) / b) by (apply Z.div_le_mono; lia). rewrite Z.div_add in H by lia. lia.
Qed.

Definition view (s : sparse) (x y : Z) : Z :=
  match data_blocks s ((y / block_height s) * block_count_hor s + x / block_width s) with
  | None => 0
  | Some b => b ((y mod block_height s) * block_width s + x mod block_width s)
  end.

Definition inside (x0 y0 x1 y1 x y : Z) : Prop := x0 <= x < x1 /\ y0 <= y < y1.
Definition rect_of (v : span * span) : Z -> Z -> Prop :=
  inside (pos (snd v)) (pos (fst v)) (pos (snd v) + incr (snd v)) (pos (fst v) + incr (fst v)).

Definition good_visit (s : sparse) (x0 y0 x1 y1 : Z) (v : span * span) : Prop :=
  good_span (block_height s) y0 y1 (fst v) /\ good_span (block_width s) x0 x1 (snd v).

Lemma valid_region : forall s x0 y0 x1 y1, is_region_valid s x0 y0 x1 y1 = true <->
  x0 < x1 <= width s /\ y0 < y1 <= height s.
Proof.
  intros. unfold is_region_valid. rewrite negb_true_iff, !orb_false_iff, !Z.leb_gt, !Z.ltb_ge. lia.
Qed.

Lemma visits_good : forall s x0 y0 x1 y1, wf s -> 0 <= x0 -> 0 <= y0 -> x1 <= width s -> y1 <= height s ->
  Forall (good_visit s x0 y0 x1 y1) (visits s x0 y0 x1 y1) /\
  (forall x y, inside x0 y0 x1 y1 x y -> exists v, In v (visits s x0 y0 x1 y1) /\ rect_of v x y).
Proof.
  intros s x0 y0 x1 y1 (W & H & BW & BH & _) Hx0 Hy0 Hx1 Hy1. unfold visits.
  destruct (spans_good (block_width s) x0 x1 (Z.to_nat (x1 - x0)) x0 (x0 / block_width s) BW ltac:(lia) ltac:(lia)) as [GX CX]; [auto |].
  destruct (spans_good (block_height s) y0 y1 (Z.to_nat (y1 - y0)) y0 (y0 / block_height s) BH ltac:(lia) ltac:(lia)) as [GY CY]; [auto |].
  split.
  - apply Forall_forall. intros v Hv. apply in_flat_map in Hv. destruct Hv as (sy & Hy & Hv).
    apply in_map_iff in Hv. destruct Hv as (sx & <- & Hx). split; cbn [fst snd].
    + rewrite Forall_forall in GY. apply GY, Hy.
    + rewrite Forall_forall in GX. apply GX, Hx.
  - intros x y [Hx Hy]. destruct (CX ltac:(lia) x Hx) as (sx & Ix & Rx). destruct (CY ltac:(lia) y Hy) as (sy & Iy & Ry).
    exists (sy, sx). split; [| split; assumption].
    apply in_flat_map. exists sy. split; [exact Iy |]. apply in_map_iff. exists sx. split; [reflexivity | exact Ix].
Qed.

(** Address of a cell in the caller's buffer. *)
Definition addr (x0 y0 cs ls x y : Z) : Z := (y - y0) * ls + (x - x0) * cs.

Section Visit.
  Variables (s : sparse) (x0 y0 x1 y1 cs ls : Z).
  Hypothesis (Hwf : wf s) (Hx0 : 0 <= x0) (Hy0 : 0 <= y0) (Hx1 : x1 <= width s) (Hy1 : y1 <= height s).
  Hypothesis (Hcs : 0 <= cs) (Hcs' : (x1 - x0) * cs <= 2 ^ 32).

  Lemma in_buf_addr : forall sy sx j k, good_visit s x0 y0 x1 y1 (sy, sx) -> 0 <= j < incr sy -> 0 <= k < incr sx ->
    in_buf y0 x0 cs ls sy sx j k = addr x0 y0 cs ls (pos sx + k) (pos sy + j).
  Proof.
    intros sy sx j k [(Y1 & Y2 & Y3 & _) (X1 & X2 & X3 & _)] Hj Hk. cbn [fst snd] in *.
    destruct Hwf as (W & H & _). unfold in_buf, addr.
    rewrite (u32_id (pos sy - y0)) by lia. rewrite (u32_id (pos sx - x0)) by lia.
    destruct (Z.eq_dec cs 0) as [-> | Hne].
    - rewrite !Z.mul_0_r. change (u32 0) with 0. lia.
    - assert (A : (pos sx - x0) * cs < 2 ^ 32) by nia. assert (B : k * cs < 2 ^ 32) by nia.
      rewrite (u32_id ((pos sx - x0) * cs)) by nia. rewrite (u32_id (k * cs)) by nia. lia.
  Qed.

  Lemma block_of_visit : forall sy sx j k, good_visit s x0 y0 x1 y1 (sy, sx) -> 0 <= j < incr sy -> 0 <= k < incr sx ->
    let x := pos sx + k in let y := pos sy + j in
    (y / block_height s) * block_count_hor s + x / block_width s = block_index s sy sx /\
    (y mod block_height s) * block_width s + x mod block_width s = in_block s sy sx j k.
  Proof.
    intros sy sx j k [(Y1 & Y2 & Y3 & Y4 & Y5 & Y6) (X1 & X2 & X3 & X4 & X5 & X6)] Hj Hk x y. cbn [fst snd] in *.
    destruct Hwf as (W & H & BW & BH & CH & CV & CC).
    assert (D : forall b p o q i, 1 <= b -> o = p mod b -> o + i <= b -> q = p / b -> forall k, 0 <= k < i ->
                (p + k) / b = q /\ (p + k) mod b = o + k).
    { intros b p o q i Hb -> Ho -> l Hl. pose proof (Z.mod_pos_bound p b ltac:(lia)).
      pose proof (Z.div_mod p b ltac:(lia)) as E.
      assert (E' : p + l = b * (p / b) + (p mod b + l)) by lia. split.
      - symmetry. apply (Z.div_unique_pos _ _ _ (p mod b + l)); lia.
      - symmetry. apply (Z.mod_unique_pos _ _ (p / b)); lia. }
    destruct (D (block_width s) (pos sx) (off sx) (blk sx) (incr sx) ltac:(lia) X4 X5 X6 k Hk) as [DX MX].
    destruct (D (block_height s) (pos sy) (off sy) (blk sy) (incr sy) ltac:(lia) Y4 Y5 Y6 j Hj) as [DY MY].
    unfold x, y. rewrite DX, MX, DY, MY. split.
    - unfold block_index. pose proof (ceil_bound (pos sx) (width s) (block_width s) ltac:(lia) ltac:(lia)) as BX.
      pose proof (ceil_bound (pos sy) (height s) (block_height s) ltac:(lia) ltac:(lia)) as BY.
      rewrite <- CH, <- X6 in BX. rewrite <- CV, <- Y6 in BY.
      destruct (index_bound _ _ _ _ BY BX CC) as [I1 I2].
      rewrite (u32_id _ I1), (u32_id _ I2). reflexivity.
    - unfold in_block. lia.
  Qed.

  Definition distinct : Prop := forall x y x' y', inside x0 y0 x1 y1 x y -> inside x0 y0 x1 y1 x' y' ->
    addr x0 y0 cs ls x y = addr x0 y0 cs ls x' y' -> x = x' /\ y = y'.

  Lemma rect_inside : forall v x y, good_visit s x0 y0 x1 y1 v -> rect_of v x y -> inside x0 y0 x1 y1 x y.
  Proof.
    intros v x y [(Y1 & Y2 & Y3 & _) (X1 & X2 & X3 & _)] [Rx Ry]. unfold inside. lia.
  Qed.

  Lemma read_visit_spec : forall buf v, distinct -> good_visit s x0 y0 x1 y1 v ->
    let buf' := read_visit s x0 y0 cs ls buf v in
    (forall x y, rect_of v x y -> buf' (addr x0 y0 cs ls x y) = view s x y) /\
    (forall a, (forall x y, rect_of v x y -> a <> addr x0 y0 cs ls x y) -> buf' a = buf a).
  Proof.
    intros buf [sy sx] Hd Hg buf'. subst buf'.
    pose proof Hg as [(Y1 & Y2 & Y3 & Y4 & Y5 & Y6) (X1 & X2 & X3 & X4 & X5 & X6)]. cbn [fst snd] in *.
    assert (Hi : incr sx < 2 ^ 32). { destruct Hwf as (_ & _ & BW & _). pose proof (Z.mod_pos_bound (pos sx) (block_width s)). lia. }
    assert (R : exists v, read_visit s x0 y0 cs ls buf (sy, sx) =
                  for_to 0 (incr sy) (fun j m => for_to 0 (incr sx) (fun k m => upd m (in_buf y0 x0 cs ls sy sx j k) (v j k)) m) buf /\
                  (forall j k, 0 <= j < incr sy -> 0 <= k < incr sx -> v j k = view s (pos sx + k) (pos sy + j))).
    { unfold read_visit.
      destruct (data_blocks s (block_index s sy sx)) as [b |] eqn:E.
      - exists (fun j k => b (in_block s sy sx j k)). split.
        + apply for_ext. intros j m Hj. apply read_line_spec. lia.
        + intros j k Hj Hk. destruct (block_of_visit sy sx j k Hg Hj Hk) as [B1 B2]. unfold view. rewrite B1, E, B2. reflexivity.
      - exists (fun _ _ => 0). split; [reflexivity |].
        intros j k Hj Hk. destruct (block_of_visit sy sx j k Hg Hj Hk) as [B1 B2]. unfold view. rewrite B1, E. reflexivity. }
    destruct R as (v & -> & Hv).
    assert (RI : forall j k, 0 <= j < incr sy -> 0 <= k < incr sx -> rect_of (sy, sx) (pos sx + k) (pos sy + j))
      by (intros; unfold rect_of, inside; cbn [fst snd]; lia).
    destruct (grid_fill (incr sy) (incr sx) (in_buf y0 x0 cs ls sy sx) v buf ltac:(lia) ltac:(lia)) as [A B].
    - intros j k j' k' Hj Hk Hj' Hk' E. rewrite !in_buf_addr in E by assumption.
      apply Hd in E; [lia | |]; apply (rect_inside (sy, sx)); auto.
    - split.
      + intros x y [Rx Ry]. cbn [fst snd] in Rx, Ry.
        replace x with (pos sx + (x - pos sx)) by lia. replace y with (pos sy + (y - pos sy)) by lia.
        rewrite <- in_buf_addr by (assumption || lia). rewrite A by lia. apply Hv; lia.
      + intros a Ha. apply B. intros j k Hj Hk. rewrite in_buf_addr by assumption. apply Ha, RI; assumption.
  Qed.

  Lemma read_visits_spec : forall vs buf, distinct -> Forall (good_visit s x0 y0 x1 y1) vs ->
    let buf' := fold_left (read_visit s x0 y0 cs ls) vs buf in
    (forall x y, inside x0 y0 x1 y1 x y -> (exists v, In v vs /\ rect_of v x y) \/ buf (addr x0 y0 cs ls x y) = view s x y ->
       buf' (addr x0 y0 cs ls x y) = view s x y) /\
    (forall a, (forall x y, inside x0 y0 x1 y1 x y -> a <> addr x0 y0 cs ls x y) -> buf' a = buf a).
  Proof.
    induction vs as [| v vs IH]; intros buf Hd Hall; cbn [fold_left].
    - split; [| reflexivity]. intros x y _ [(v & [] & _) | E]. exact E.
    - inversion Hall as [| ? ? Hg Hall']; subst. destruct (read_visit_spec buf v Hd Hg) as [A B].
      destruct (IH (read_visit s x0 y0 cs ls buf v) Hd Hall') as [C D]. split.
      + intros x y Hxy Hor. apply C; [exact Hxy |].
        assert (Dec : rect_of v x y \/ ~ rect_of v x y).
        { unfold rect_of, inside. destruct v as [sy sx]. cbn [fst snd].
          destruct (Z_le_dec (pos sx) x), (Z_lt_dec x (pos sx + incr sx)), (Z_le_dec (pos sy) y), (Z_lt_dec y (pos sy + incr sy));
            try (left; lia); right; lia. }
        destruct Dec as [R | R]; [right; apply A, R |].
        destruct Hor as [(v' & [-> | Hin] & R') | E]; [contradiction | left; exists v'; auto |].
        right. rewrite B; [exact E |]. intros x' y' R' Ea. apply Hd in Ea; [| exact Hxy | apply (rect_inside v); assumption].
        destruct Ea as [-> ->]. contradiction.
      + intros a Ha. rewrite D by exact Ha. apply B. intros x y R. apply Ha, (rect_inside v); assumption.
  Qed.
End Visit.

Definition same_shape (s s' : sparse) : Prop :=
  width s' = width s /\ height s' = height s /\ block_width s' = block_width s /\ block_height s' = block_height s /\
  block_count_hor s' = block_count_hor s /\ block_count_ver s' = block_count_ver s.

Lemma same_shape_wf : forall s s', same_shape s s' -> wf s -> wf s'.
Proof. unfold wf. intros s s' (-> & -> & -> & -> & -> & ->) H. exact H. Qed.

Lemma good_visit_shape : forall s s' x0 y0 x1 y1 v, same_shape s s' -> good_visit s x0 y0 x1 y1 v -> good_visit s' x0 y0 x1 y1 v.
Proof. unfold good_visit. intros s s' x0 y0 x1 y1 v (_ & _ & -> & -> & _) H. exact H. Qed.

Lemma write_visit_spec : forall alloc s x0 y0 x1 y1 cs ls buf v s', wf s -> 0 <= x0 -> 0 <= y0 ->
  x1 <= width s -> y1 <= height s -> 0 <= cs -> (x1 - x0) * cs <= 2 ^ 32 -> good_visit s x0 y0 x1 y1 v ->
  write_visit alloc x0 y0 cs ls buf s v = Some s' ->
  same_shape s s' /\
  forall x y, 0 <= x < width s -> 0 <= y < height s ->
    (rect_of v x y -> view s' x y = buf (addr x0 y0 cs ls x y)) /\
    (~ rect_of v x y -> view s' x y = view s x y).
Proof.
  intros alloc s x0 y0 x1 y1 cs ls buf [sy sx] s' Hwf Hx0 Hy0 Hx1 Hy1 Hcs Hcs' Hg Hw.
  pose proof Hg as [(Y1 & Y2 & Y3 & Y4 & Y5 & Y6) (X1 & X2 & X3 & X4 & X5 & X6)]. cbn [fst snd] in *.
  pose proof Hwf as (W & H & BW & BH & CH & CV & CC).
  assert (Hi : incr sx < 2 ^ 32) by (pose proof (Z.mod_pos_bound (pos sx) (block_width s)); lia).
  set (i := block_index s sy sx) in *.
  set (fill b := for_to 0 (incr sy) (fun j b => for_to 0 (incr sx)
    (fun k b => upd b (in_block s sy sx j k) (buf (in_buf y0 x0 cs ls sy sx j k))) b) b).
  assert (E : exists b, (data_blocks s i = Some b \/ data_blocks s i = None /\ b = fun _ => 0) /\ s' = set_block s i (fill b)).
  { assert (F : forall b, for_to 0 (incr sy) (fun j b => write_line cs (incr sx)
                (fun k b => upd b (in_block s sy sx j k) (buf (in_buf y0 x0 cs ls sy sx j k))) b) b = fill b).
    { intros b. apply for_ext. intros j m Hj. apply write_line_spec. lia. }
    unfold write_visit in Hw. fold i in Hw. destruct (data_blocks s i) as [b |] eqn:Eb.
    - exists b. rewrite F in Hw. split; [auto | congruence].
    - exists (fun _ => 0). rewrite F in Hw. destruct (alloc i); [| discriminate]. split; [auto | congruence]. }
  destruct E as (b & Hb & ->). split; [repeat split |].
  assert (O : forall j k, 0 <= j < incr sy -> 0 <= k < incr sx ->
            in_block s sy sx j k = (off sy + j) * block_width s + (off sx + k)) by (intros; unfold in_block; lia).
  pose proof (Z.mod_pos_bound (pos sx) (block_width s) ltac:(lia)) as MX.
  pose proof (Z.mod_pos_bound (pos sy) (block_height s) ltac:(lia)) as MY.
  destruct (grid_fill (incr sy) (incr sx) (in_block s sy sx) (fun j k => buf (in_buf y0 x0 cs ls sy sx j k)) b ltac:(lia) ltac:(lia)) as [A B].
  { intros j k j' k' Hj Hk Hj' Hk' E. rewrite !O in E by assumption.
    apply row_col in E; lia. }
  fold (fill b) in A, B. intros x y Hx Hy. split.
  - intros [Rx Ry]. cbn [fst snd] in Rx, Ry.
    destruct (block_of_visit s x0 y0 x1 y1 Hwf Hx0 Hy0 Hx1 Hy1 sy sx (y - pos sy) (x - pos sx) Hg ltac:(lia) ltac:(lia)) as [B1 B2].
    replace (pos sx + (x - pos sx)) with x in * by lia. replace (pos sy + (y - pos sy)) with y in * by lia.
    unfold view. cbn [set_block width height block_width block_height block_count_hor data_blocks].
    rewrite B1. fold i. rewrite Z.eqb_refl, B2, A by lia. f_equal.
    rewrite (in_buf_addr s x0 y0 x1 y1 cs ls) by (assumption || lia). f_equal; lia.
  - intros NR. unfold view. cbn [set_block width height block_width block_height block_count_hor data_blocks].
    destruct (Z.eqb_spec (y / block_height s * block_count_hor s + x / block_width s) i) as [E | E]; [| reflexivity].
    destruct (block_of_visit s x0 y0 x1 y1 Hwf Hx0 Hy0 Hx1 Hy1 sy sx 0 0 Hg ltac:(lia) ltac:(lia)) as [B1 _].
    rewrite !Z.add_0_r in B1. fold i in B1.
    pose proof (ceil_bound x (width s) (block_width s) ltac:(lia) Hx) as CX.
    pose proof (ceil_bound (pos sx) (width s) (block_width s) ltac:(lia) ltac:(lia)) as CPX. rewrite <- CH in CX, CPX.
    rewrite <- B1 in E. apply row_col in E; [| exact CX | exact CPX]. destruct E as [EY EX].
    rewrite B.
    + rewrite EY, EX, B1. destruct Hb as [-> | [-> ->]]; reflexivity.
    + intros j k Hj Hk E. rewrite O in E by assumption.
      apply row_col in E; [| apply Z.mod_pos_bound; lia | lia]. destruct E as [E1 E2].
      apply NR. unfold rect_of, inside. cbn [fst snd].
      pose proof (Z.div_mod x (block_width s) ltac:(lia)). pose proof (Z.div_mod y (block_height s) ltac:(lia)).
      pose proof (Z.div_mod (pos sx) (block_width s) ltac:(lia)). pose proof (Z.div_mod (pos sy) (block_height s) ltac:(lia)).
      rewrite EX in *. rewrite EY in *. lia.
Qed.

Lemma write_visits_spec : forall alloc x0 y0 x1 y1 cs ls buf vs s, wf s -> 0 <= x0 -> 0 <= y0 ->
  x1 <= width s -> y1 <= height s -> 0 <= cs -> (x1 - x0) * cs <= 2 ^ 32 -> Forall (good_visit s x0 y0 x1 y1) vs ->
  let '(r, s') := write_visits alloc x0 y0 cs ls buf vs s in
  same_shape s s' /\ (r = 1 \/ r = 0 /\ exists i, alloc i = false) /\
  forall x y, 0 <= x < width s -> 0 <= y < height s ->
    (~ inside x0 y0 x1 y1 x y -> view s' x y = view s x y) /\
    (r = 1 -> (exists v, In v vs /\ rect_of v x y) \/ view s x y = buf (addr x0 y0 cs ls x y) ->
       view s' x y = buf (addr x0 y0 cs ls x y)) /\
    (view s' x y = view s x y \/ view s' x y = buf (addr x0 y0 cs ls x y)).
Proof.
  intros alloc x0 y0 x1 y1 cs ls buf vs. induction vs as [| v vs IH]; intros s Hwf Hx0 Hy0 Hx1 Hy1 Hcs Hcs' Hall; cbn [write_visits].
  - split; [repeat split |]. split; [left; reflexivity |]. intros x y Hx Hy. split; [reflexivity |]. split; [| left; reflexivity].
    intros _ [(v & [] & _) | E]. exact E.
  - inversion Hall as [| ? ? Hg Hall']; subst.
    destruct (write_visit alloc x0 y0 cs ls buf s v) as [s1 |] eqn:Ew.
    + destruct (write_visit_spec _ _ _ _ _ _ _ _ _ _ _ Hwf Hx0 Hy0 Hx1 Hy1 Hcs Hcs' Hg Ew) as [Hs Hv].
      pose proof Hs as (SW & SH & _).
      specialize (IH s1 (same_shape_wf _ _ Hs Hwf) Hx0 Hy0 ltac:(lia) ltac:(lia) Hcs Hcs').
      assert (Hall1 : Forall (good_visit s1 x0 y0 x1 y1) vs).
      { eapply Forall_impl; [| exact Hall']. intros a. apply good_visit_shape, Hs. }
      specialize (IH Hall1). destruct (write_visits alloc x0 y0 cs ls buf vs s1) as [r s2]. destruct IH as (S2 & R & V).
      split.
      { destruct Hs as (? & ? & ? & ? & ? & ?), S2 as (? & ? & ? & ? & ? & ?). repeat split; congruence. }
      split; [exact R |]. intros x y Hx Hy. destruct (V x y ltac:(lia) ltac:(lia)) as (V1 & V2 & V3). destruct (Hv x y Hx Hy) as [P N].
      assert (Dec : rect_of v x y \/ ~ rect_of v x y).
      { unfold rect_of, inside. destruct v as [sy sx]. cbn [fst snd].
        destruct (Z_le_dec (pos sx) x), (Z_lt_dec x (pos sx + incr sx)), (Z_le_dec (pos sy) y), (Z_lt_dec y (pos sy + incr sy));
          try (left; lia); right; lia. }
      split; [| split].
      * intros NI. rewrite V1 by exact NI. apply N. intros Rv. apply NI, (rect_inside s x0 y0 x1 y1 v); assumption.
      * intros Hr Hor. apply V2; [exact Hr |]. destruct Dec as [D | D]; [right; apply P, D |].
        destruct Hor as [(v' & [-> | Hin] & R') | E]; [contradiction | left; exists v'; auto |].
        right. rewrite N by exact D. exact E.
      * destruct V3 as [V3 | V3]; [| right; exact V3]. destruct Dec as [D | D].
        -- right. rewrite V3. apply P, D.
        -- left. rewrite V3. apply N, D.
    + split; [repeat split |]. split.
      * right. split; [reflexivity |]. unfold write_visit in Ew. destruct v as [sy sx].
        destruct (data_blocks s (block_index s sy sx)); [discriminate |].
        exists (block_index s sy sx). destruct (alloc (block_index s sy sx)); [discriminate | reflexivity].
      * intros x y Hx Hy. split; [reflexivity |]. split; [| left; reflexivity]. discriminate.
Qed.

Lemma uint_ceildiv_eq : forall a b, 0 <= a < 2 ^ 32 -> 1 <= b < 2 ^ 32 -> uint_ceildiv a b = (a + b - 1) / b.
Proof.
  intros a b Ha Hb. unfold uint_ceildiv. rewrite (u64_id (a + b)) by lia. rewrite u64_id by lia. apply u32_id.
  split; [apply Z.div_pos; lia |]. apply Z.div_lt_upper_bound; nia.
Qed.

Lemma create_wf : forall w h bw bh s, is_u32 w -> is_u32 h -> is_u32 bw -> is_u32 bh -> create w h bw bh = Some s ->
  wf s /\ width s = w /\ height s = h /\ block_width s = bw /\ block_height s = bh /\
  4 * (bw * bh) < 2 ^ 32 /\ forall x y, view s x y = 0.
Proof.
  unfold is_u32. intros w h bw bh s Hw Hh Hbw Hbh. unfold create.
  destruct ((w =? 0) || (h =? 0) || (bw =? 0) || (bh =? 0)) eqn:E; [discriminate |].
  rewrite !orb_false_iff, !Z.eqb_neq in E. destruct E as (((N1 & N2) & N3) & N4).
  destruct (Z.ltb_spec ((2 ^ 32 - 1) / bh / 4) bw) as [L | L]; [discriminate |].
  rewrite !uint_ceildiv_eq by lia. set (ch := (w + bw - 1) / bw). set (cv := (h + bh - 1) / bh).
  destruct (Z.ltb_spec ((2 ^ 32 - 1) / cv) ch) as [L' | L']; [discriminate |]. intros E. injection E as <-.
  assert (Hcv : 1 <= cv) by (unfold cv; apply Z.div_le_lower_bound; lia).
  unfold wf, view. cbn [width height block_width block_height block_count_hor block_count_ver data_blocks].
  assert (HP : ch * cv < 2 ^ 32).
  { assert (ch * cv <= (2 ^ 32 - 1) / cv * cv) by nia. pose proof (Z.mul_div_le (2 ^ 32 - 1) cv ltac:(lia)). lia. }
  assert (HB : 4 * (bw * bh) < 2 ^ 32).
  { rewrite Z.div_div in L by lia. assert (bw * (bh * 4) <= (2 ^ 32 - 1) / (bh * 4) * (bh * 4)) by nia.
    pose proof (Z.mul_div_le (2 ^ 32 - 1) (bh * 4) ltac:(lia)). lia. }
  repeat split; try lia.
Qed.
